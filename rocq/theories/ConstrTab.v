(* Generated by a script from src/{ranap,rua,hnbap,sabp}/*.c: the functions that check
   constraints, as they are written, and where they are installed. *)
From Verif Require Import Base Constr.
From Coq Require Import String.
Local Open Scope Z_scope.
Local Open Scope string_scope.

(* descriptor, the function installed in it, the descriptor it inherits from:
   the check_constraints of each asn_DEF_* that is implemented using another, and its
   *_inherit_TYPE_descriptor *)
Definition own_checks : list own :=
  [ mkOwn "RANAP_APN" (COcts (SIn 1 255)) "OCTET_STRING" (* src/ranap/RANAP_APN.c:10-34 *);
    mkOwn "RANAP_AccuracyFulfilmentIndicator" (CDelegate "NativeEnumerated") "NativeEnumerated" (* src/ranap/RANAP_AccuracyFulfilmentIndicator.c:10-16 *);
    mkOwn "RANAP_PriorityLevel" (CRange (mkLit false 0) (mkLit false 15)) "NativeInteger" (* src/ranap/RANAP_PriorityLevel.c:10-33 *);
    mkOwn "RANAP_Pre_emptionCapability" (CDelegate "NativeEnumerated") "NativeEnumerated" (* src/ranap/RANAP_Pre-emptionCapability.c:10-16 *);
    mkOwn "RANAP_Pre_emptionVulnerability" (CDelegate "NativeEnumerated") "NativeEnumerated" (* src/ranap/RANAP_Pre-emptionVulnerability.c:10-16 *);
    mkOwn "RANAP_QueuingAllowed" (CDelegate "NativeEnumerated") "NativeEnumerated" (* src/ranap/RANAP_QueuingAllowed.c:10-16 *);
    mkOwn "RANAP_ProtocolIE_ID" (CRange (mkLit false 0) (mkLit false 65535)) "NativeInteger" (* src/ranap/RANAP_ProtocolIE-ID.c:10-33 *);
    mkOwn "RANAP_Criticality" (CDelegate "NativeEnumerated") "NativeEnumerated" (* src/ranap/RANAP_Criticality.c:10-16 *);
    mkOwn "RANAP_Alt_RAB_Parameter_GuaranteedBitrateType" (CDelegate "NativeEnumerated") "NativeEnumerated" (* src/ranap/RANAP_Alt-RAB-Parameter-GuaranteedBitrateType.c:10-16 *);
    mkOwn "RANAP_ExtendedGuaranteedBitrate" (CRange (mkLit false 16000001) (mkLit false 256000000)) "NativeInteger" (* src/ranap/RANAP_ExtendedGuaranteedBitrate.c:10-33 *);
    mkOwn "RANAP_Alt_RAB_Parameter_MaxBitrateType" (CDelegate "NativeEnumerated") "NativeEnumerated" (* src/ranap/RANAP_Alt-RAB-Parameter-MaxBitrateType.c:10-16 *);
    mkOwn "RANAP_ExtendedMaxBitrate" (CRange (mkLit false 16000001) (mkLit false 256000000)) "NativeInteger" (* src/ranap/RANAP_ExtendedMaxBitrate.c:10-33 *);
    mkOwn "RANAP_GuaranteedBitrate" (CRange (mkLit false 0) (mkLit false 16000000)) "NativeInteger" (* src/ranap/RANAP_GuaranteedBitrate.c:10-33 *);
    mkOwn "RANAP_MaxBitrate" (CRange (mkLit false 1) (mkLit false 16000000)) "NativeInteger" (* src/ranap/RANAP_MaxBitrate.c:10-33 *);
    mkOwn "RANAP_SupportedBitrate" (CRange (mkLit false 1) (mkLit false 1000000000)) "NativeInteger" (* src/ranap/RANAP_SupportedBitrate.c:10-33 *);
    mkOwn "RANAP_AlternativeRABConfigurationRequest" (CDelegate "NativeEnumerated") "NativeEnumerated" (* src/ranap/RANAP_AlternativeRABConfigurationRequest.c:10-16 *);
    mkOwn "RANAP_PLMNidentity" (COcts (SEq 3)) "OCTET_STRING" (* src/ranap/RANAP_PLMNidentity.c:10-34 *);
    mkOwn "RANAP_LAC" (COcts (SEq 2)) "OCTET_STRING" (* src/ranap/RANAP_LAC.c:10-34 *);
    mkOwn "RANAP_SAC" (COcts (SEq 2)) "OCTET_STRING" (* src/ranap/RANAP_SAC.c:10-34 *);
    mkOwn "RANAP_GeographicalCoordinates__latitudeSign_2" (CDelegate "NativeEnumerated") "NativeEnumerated" (* src/ranap/RANAP_GeographicalCoordinates.c:10-16 *);
    mkOwn "RANAP_GA_AltitudeAndDirection__directionOfAltitude_2" (CDelegate "NativeEnumerated") "NativeEnumerated" (* src/ranap/RANAP_GA-AltitudeAndDirection.c:10-16 *);
    mkOwn "RANAP_SNAC" (CRange (mkLit false 0) (mkLit false 65535)) "NativeInteger" (* src/ranap/RANAP_SNAC.c:10-33 *);
    mkOwn "RANAP_BindingID" (COcts (SEq 4)) "OCTET_STRING" (* src/ranap/RANAP_BindingID.c:10-34 *);
    mkOwn "RANAP_CI" (COcts (SEq 2)) "OCTET_STRING" (* src/ranap/RANAP_CI.c:10-34 *);
    mkOwn "RANAP_CN_DomainIndicator" (CDelegate "NativeEnumerated") "NativeEnumerated" (* src/ranap/RANAP_CN-DomainIndicator.c:10-16 *);
    mkOwn "RANAP_CN_ID" (CRange (mkLit false 0) (mkLit false 4095)) "NativeInteger" (* src/ranap/RANAP_CN-ID.c:10-33 *);
    mkOwn "RANAP_MBMS_PTP_RAB_ID" (CBits (SEq 8)) "BIT_STRING" (* src/ranap/RANAP_MBMS-PTP-RAB-ID.c:10-39 *);
    mkOwn "RANAP_CSFB_Information" (CDelegate "NativeEnumerated") "NativeEnumerated" (* src/ranap/RANAP_CSFB-Information.c:10-16 *);
    mkOwn "RANAP_CSG_Id" (CBits (SEq 27)) "BIT_STRING" (* src/ranap/RANAP_CSG-Id.c:10-39 *);
    mkOwn "RANAP_CSG_Membership_Status" (CDelegate "NativeEnumerated") "NativeEnumerated" (* src/ranap/RANAP_CSG-Membership-Status.c:10-16 *);
    mkOwn "RANAP_CauseRadioNetwork" (CRange (mkLit false 1) (mkLit false 64)) "NativeInteger" (* src/ranap/RANAP_CauseRadioNetwork.c:10-33 *);
    mkOwn "RANAP_CauseTransmissionNetwork" (CRange (mkLit false 65) (mkLit false 80)) "NativeInteger" (* src/ranap/RANAP_CauseTransmissionNetwork.c:10-33 *);
    mkOwn "RANAP_CauseNAS" (CRange (mkLit false 81) (mkLit false 96)) "NativeInteger" (* src/ranap/RANAP_CauseNAS.c:10-33 *);
    mkOwn "RANAP_CauseProtocol" (CRange (mkLit false 97) (mkLit false 112)) "NativeInteger" (* src/ranap/RANAP_CauseProtocol.c:10-33 *);
    mkOwn "RANAP_CauseMisc" (CRange (mkLit false 113) (mkLit false 128)) "NativeInteger" (* src/ranap/RANAP_CauseMisc.c:10-33 *);
    mkOwn "RANAP_CauseNon_Standard" (CRange (mkLit false 129) (mkLit false 256)) "NativeInteger" (* src/ranap/RANAP_CauseNon-Standard.c:10-33 *);
    mkOwn "RANAP_CauseRadioNetworkExtension" (CRange (mkLit false 257) (mkLit false 512)) "NativeInteger" (* src/ranap/RANAP_CauseRadioNetworkExtension.c:10-33 *);
    mkOwn "RANAP_Cell_Access_Mode" (CDelegate "NativeEnumerated") "NativeEnumerated" (* src/ranap/RANAP_Cell-Access-Mode.c:10-16 *);
    mkOwn "RANAP_Cell_Capacity_Class_Value" (CRange (mkLit false 1) (mkLit false 100)) "NativeInteger" (* src/ranap/RANAP_Cell-Capacity-Class-Value.c:10-33 *);
    mkOwn "RANAP_Cell_Id" (CRange (mkLit false 0) (mkLit false 268435455)) "NativeInteger" (* src/ranap/RANAP_Cell-Id.c:10-33 *);
    mkOwn "RANAP_LoadValue" (CRange (mkLit false 0) (mkLit false 100)) "NativeInteger" (* src/ranap/RANAP_LoadValue.c:10-33 *);
    mkOwn "RANAP_RTLoadValue" (CRange (mkLit false 0) (mkLit false 100)) "NativeInteger" (* src/ranap/RANAP_RTLoadValue.c:10-33 *);
    mkOwn "RANAP_NRTLoadInformationValue" (CRange (mkLit false 0) (mkLit false 3)) "NativeInteger" (* src/ranap/RANAP_NRTLoadInformationValue.c:10-33 *);
    mkOwn "RANAP_TargetCellId" (CRange (mkLit false 0) (mkLit false 268435455)) "NativeInteger" (* src/ranap/RANAP_TargetCellId.c:10-33 *);
    mkOwn "RANAP_CellType" (CDelegate "NativeEnumerated") "NativeEnumerated" (* src/ranap/RANAP_CellType.c:10-16 *);
    mkOwn "RANAP_ChosenEncryptionAlgorithm" (CDelegate "RANAP_EncryptionAlgorithm") "RANAP_EncryptionAlgorithm" (* src/ranap/RANAP_ChosenEncryptionAlgorithm.c:10-29 *);
    mkOwn "RANAP_ChosenIntegrityProtectionAlgorithm" (CDelegate "RANAP_IntegrityProtectionAlgorithm") "RANAP_IntegrityProtectionAlgorithm" (* src/ranap/RANAP_ChosenIntegrityProtectionAlgorithm.c:10-29 *);
    mkOwn "RANAP_ClassmarkInformation2" (CDelegate "OCTET_STRING") "OCTET_STRING" (* src/ranap/RANAP_ClassmarkInformation2.c:10-16 *);
    mkOwn "RANAP_ClassmarkInformation3" (CDelegate "OCTET_STRING") "OCTET_STRING" (* src/ranap/RANAP_ClassmarkInformation3.c:10-16 *);
    mkOwn "RANAP_ClientType" (CDelegate "NativeEnumerated") "NativeEnumerated" (* src/ranap/RANAP_ClientType.c:10-16 *);
    mkOwn "RANAP_Correlation_ID" (COcts (SEq 4)) "OCTET_STRING" (* src/ranap/RANAP_Correlation-ID.c:10-34 *);
    mkOwn "RANAP_RepetitionNumber0" (CRange (mkLit false 0) (mkLit false 255)) "NativeInteger" (* src/ranap/RANAP_RepetitionNumber0.c:10-33 *);
    mkOwn "RANAP_ProcedureCode" (CRange (mkLit false 0) (mkLit false 255)) "NativeInteger" (* src/ranap/RANAP_ProcedureCode.c:10-33 *);
    mkOwn "RANAP_TriggeringMessage" (CDelegate "NativeEnumerated") "NativeEnumerated" (* src/ranap/RANAP_TriggeringMessage.c:10-16 *);
    mkOwn "RANAP_D_RNTI" (CRange (mkLit false 0) (mkLit false 1048575)) "NativeInteger" (* src/ranap/RANAP_D-RNTI.c:10-33 *);
    mkOwn "RANAP_DCH_ID" (CRange (mkLit false 0) (mkLit false 255)) "NativeInteger" (* src/ranap/RANAP_DCH-ID.c:10-33 *);
    mkOwn "RANAP_DL_GTP_PDU_SequenceNumber" (CRange (mkLit false 0) (mkLit false 65535)) "NativeInteger" (* src/ranap/RANAP_DL-GTP-PDU-SequenceNumber.c:10-33 *);
    mkOwn "RANAP_DL_N_PDU_SequenceNumber" (CRange (mkLit false 0) (mkLit false 65535)) "NativeInteger" (* src/ranap/RANAP_DL-N-PDU-SequenceNumber.c:10-33 *);
    mkOwn "RANAP_DRX_CycleLengthCoefficient" (CRange (mkLit false 6) (mkLit false 9)) "NativeInteger" (* src/ranap/RANAP_DRX-CycleLengthCoefficient.c:10-33 *);
    mkOwn "RANAP_DSCH_ID" (CRange (mkLit false 0) (mkLit false 255)) "NativeInteger" (* src/ranap/RANAP_DSCH-ID.c:10-33 *);
    mkOwn "RANAP_DataPDUType" (CDelegate "NativeEnumerated") "NativeEnumerated" (* src/ranap/RANAP_DataPDUType.c:10-16 *);
    mkOwn "RANAP_UnsuccessfullyTransmittedDataVolume" (CAlways) "NativeInteger" (* src/ranap/RANAP_UnsuccessfullyTransmittedDataVolume.c:10-24 *);
    mkOwn "RANAP_DataVolumeReference" (CRange (mkLit false 0) (mkLit false 255)) "NativeInteger" (* src/ranap/RANAP_DataVolumeReference.c:10-33 *);
    mkOwn "RANAP_DataVolumeReportingIndication" (CDelegate "NativeEnumerated") "NativeEnumerated" (* src/ranap/RANAP_DataVolumeReportingIndication.c:10-16 *);
    mkOwn "RANAP_DeliveryOfErroneousSDU" (CDelegate "NativeEnumerated") "NativeEnumerated" (* src/ranap/RANAP_DeliveryOfErroneousSDU.c:10-16 *);
    mkOwn "RANAP_DeliveryOrder" (CDelegate "NativeEnumerated") "NativeEnumerated" (* src/ranap/RANAP_DeliveryOrder.c:10-16 *);
    mkOwn "RANAP_RAC" (COcts (SEq 1)) "OCTET_STRING" (* src/ranap/RANAP_RAC.c:10-34 *);
    mkOwn "RANAP_DirectReportingIndicator" (CDelegate "NativeEnumerated") "NativeEnumerated" (* src/ranap/RANAP_DirectReportingIndicator.c:10-16 *);
    mkOwn "RANAP_NAS_PDU" (CDelegate "OCTET_STRING") "OCTET_STRING" (* src/ranap/RANAP_NAS-PDU.c:10-16 *);
    mkOwn "RANAP_SAPI" (CDelegate "NativeEnumerated") "NativeEnumerated" (* src/ranap/RANAP_SAPI.c:10-16 *);
    mkOwn "RANAP_E_DCH_MAC_d_Flow_ID" (CRange (mkLit false 0) (mkLit false 7)) "NativeInteger" (* src/ranap/RANAP_E-DCH-MAC-d-Flow-ID.c:10-33 *);
    mkOwn "RANAP_E_UTRAN_Service_Handover" (CDelegate "NativeEnumerated") "NativeEnumerated" (* src/ranap/RANAP_E-UTRAN-Service-Handover.c:10-16 *);
    mkOwn "RANAP_EARFCN_Extended" (CRange (mkLit false 65536) (mkLit false 262143)) "NativeInteger" (* src/ranap/RANAP_EARFCN-Extended.c:10-33 *);
    mkOwn "RANAP_MeasBand" (CDelegate "NativeEnumerated") "NativeEnumerated" (* src/ranap/RANAP_MeasBand.c:10-16 *);
    mkOwn "RANAP_EncryptionAlgorithm" (CRange (mkLit false 0) (mkLit false 15)) "NativeInteger" (* src/ranap/RANAP_EncryptionAlgorithm.c:10-33 *);
    mkOwn "RANAP_EncryptionKey" (CBits (SEq 128)) "BIT_STRING" (* src/ranap/RANAP_EncryptionKey.c:10-39 *);
    mkOwn "RANAP_End_Of_CSFB" (CDelegate "NativeEnumerated") "NativeEnumerated" (* src/ranap/RANAP_End-Of-CSFB.c:10-16 *);
    mkOwn "RANAP_IMEI" (COcts (SEq 8)) "OCTET_STRING" (* src/ranap/RANAP_IMEI.c:10-34 *);
    mkOwn "RANAP_IMEISV" (COcts (SEq 8)) "OCTET_STRING" (* src/ranap/RANAP_IMEISV.c:10-34 *);
    mkOwn "RANAP_Event" (CDelegate "NativeEnumerated") "NativeEnumerated" (* src/ranap/RANAP_Event.c:10-16 *);
    mkOwn "RANAP_MeasurementQuantity" (CDelegate "NativeEnumerated") "NativeEnumerated" (* src/ranap/RANAP_MeasurementQuantity.c:10-16 *);
    mkOwn "RANAP_ExtendedRNC_ID" (CRange (mkLit false 4096) (mkLit false 65535)) "NativeInteger" (* src/ranap/RANAP_ExtendedRNC-ID.c:10-33 *);
    mkOwn "RANAP_ForwardingIndication" (CDelegate "NativeEnumerated") "NativeEnumerated" (* src/ranap/RANAP_ForwardingIndication.c:10-16 *);
    mkOwn "RANAP_FrameSequenceNumber" (CRange (mkLit false 0) (mkLit false 15)) "NativeInteger" (* src/ranap/RANAP_FrameSequenceNumber.c:10-33 *);
    mkOwn "RANAP_FrequenceLayerConvergenceFlag" (CDelegate "NativeEnumerated") "NativeEnumerated" (* src/ranap/RANAP_FrequenceLayerConvergenceFlag.c:10-16 *);
    mkOwn "RANAP_GANSS_PositioningMethodAndUsage" (COcts (SEq 1)) "OCTET_STRING" (* src/ranap/RANAP_GANSS-PositioningMethodAndUsage.c:10-34 *);
    mkOwn "RANAP_GERAN_BSC_Container" (CDelegate "OCTET_STRING") "OCTET_STRING" (* src/ranap/RANAP_GERAN-BSC-Container.c:10-16 *);
    mkOwn "RANAP_GERAN_Classmark" (CDelegate "OCTET_STRING") "OCTET_STRING" (* src/ranap/RANAP_GERAN-Classmark.c:10-16 *);
    mkOwn "RANAP_RAB_ID" (CBits (SEq 8)) "BIT_STRING" (* src/ranap/RANAP_RAB-ID.c:10-39 *);
    mkOwn "RANAP_GTP_TEI" (COcts (SEq 4)) "OCTET_STRING" (* src/ranap/RANAP_GTP-TEI.c:10-34 *);
    mkOwn "RANAP_RNC_ID" (CRange (mkLit false 0) (mkLit false 4095)) "NativeInteger" (* src/ranap/RANAP_RNC-ID.c:10-33 *);
    mkOwn "RANAP_HS_DSCH_MAC_d_Flow_ID" (CRange (mkLit false 0) (mkLit false 7)) "NativeInteger" (* src/ranap/RANAP_HS-DSCH-MAC-d-Flow-ID.c:10-33 *);
    mkOwn "RANAP_HigherBitratesThan16MbpsFlag" (CDelegate "NativeEnumerated") "NativeEnumerated" (* src/ranap/RANAP_HigherBitratesThan16MbpsFlag.c:10-16 *);
    mkOwn "RANAP_VerticalSpeedDirection" (CDelegate "NativeEnumerated") "NativeEnumerated" (* src/ranap/RANAP_VerticalSpeedDirection.c:10-16 *);
    mkOwn "RANAP_IMSI" (COcts (SIn 3 8)) "OCTET_STRING" (* src/ranap/RANAP_IMSI.c:10-34 *);
    mkOwn "RANAP_IPMulticastAddress" (COcts (SIn 4 16)) "OCTET_STRING" (* src/ranap/RANAP_IPMulticastAddress.c:10-34 *);
    mkOwn "RANAP_MeasurementsToActivate" (CBits (SEq 8)) "BIT_STRING" (* src/ranap/RANAP_MeasurementsToActivate.c:10-39 *);
    mkOwn "RANAP_ReportInterval" (CDelegate "NativeEnumerated") "NativeEnumerated" (* src/ranap/RANAP_ReportInterval.c:10-16 *);
    mkOwn "RANAP_ReportAmount" (CDelegate "NativeEnumerated") "NativeEnumerated" (* src/ranap/RANAP_ReportAmount.c:10-16 *);
    mkOwn "RANAP_IncludeVelocity" (CDelegate "NativeEnumerated") "NativeEnumerated" (* src/ranap/RANAP_IncludeVelocity.c:10-16 *);
    mkOwn "RANAP_InformationExchangeID" (CRange (mkLit false 0) (mkLit false 1048575)) "NativeInteger" (* src/ranap/RANAP_InformationExchangeID.c:10-33 *);
    mkOwn "RANAP_InformationExchangeType" (CDelegate "NativeEnumerated") "NativeEnumerated" (* src/ranap/RANAP_InformationExchangeType.c:10-16 *);
    mkOwn "RANAP_InformationTransferID" (CRange (mkLit false 0) (mkLit false 1048575)) "NativeInteger" (* src/ranap/RANAP_InformationTransferID.c:10-33 *);
    mkOwn "RANAP_TraceReference" (COcts (SIn 2 3)) "OCTET_STRING" (* src/ranap/RANAP_TraceReference.c:10-34 *);
    mkOwn "RANAP_RNCTraceInformation__traceActivationIndicato_3" (CDelegate "NativeEnumerated") "NativeEnumerated" (* src/ranap/RANAP_RNCTraceInformation.c:10-16 *);
    mkOwn "RANAP_IntegrityProtectionAlgorithm" (CRange (mkLit false 0) (mkLit false 15)) "NativeInteger" (* src/ranap/RANAP_IntegrityProtectionAlgorithm.c:10-33 *);
    mkOwn "RANAP_IntegrityProtectionKey" (CBits (SEq 128)) "BIT_STRING" (* src/ranap/RANAP_IntegrityProtectionKey.c:10-39 *);
    mkOwn "RANAP_RIMInformation" (CDelegate "OCTET_STRING") "OCTET_STRING" (* src/ranap/RANAP_RIMInformation.c:10-16 *);
    mkOwn "RANAP_TAC" (COcts (SEq 2)) "OCTET_STRING" (* src/ranap/RANAP_TAC.c:10-34 *);
    mkOwn "RANAP_InterfacesToTraceItem__interface_2" (CDelegate "NativeEnumerated") "NativeEnumerated" (* src/ranap/RANAP_InterfacesToTraceItem.c:10-16 *);
    mkOwn "RANAP_IuSignallingConnectionIdentifier" (CBits (SEq 24)) "BIT_STRING" (* src/ranap/RANAP_IuSignallingConnectionIdentifier.c:10-39 *);
    mkOwn "RANAP_KeyStatus" (CDelegate "NativeEnumerated") "NativeEnumerated" (* src/ranap/RANAP_KeyStatus.c:10-16 *);
    mkOwn "RANAP_L3_Information" (CDelegate "OCTET_STRING") "OCTET_STRING" (* src/ranap/RANAP_L3-Information.c:10-16 *);
    mkOwn "RANAP_LHN_ID" (COcts (SIn 32 256)) "OCTET_STRING" (* src/ranap/RANAP_LHN-ID.c:10-34 *);
    mkOwn "RANAP_Time_UE_StayedInCell" (CRange (mkLit false 0) (mkLit false 4095)) "NativeInteger" (* src/ranap/RANAP_Time-UE-StayedInCell.c:10-33 *);
    mkOwn "RANAP_Links_to_log" (CDelegate "NativeEnumerated") "NativeEnumerated" (* src/ranap/RANAP_Links-to-log.c:10-16 *);
    mkOwn "RANAP_RequestedLocationRelatedDataType" (CDelegate "NativeEnumerated") "NativeEnumerated" (* src/ranap/RANAP_RequestedLocationRelatedDataType.c:10-16 *);
    mkOwn "RANAP_RequestedGPSAssistanceData" (COcts (SIn 1 38)) "OCTET_STRING" (* src/ranap/RANAP_RequestedGPSAssistanceData.c:10-34 *);
    mkOwn "RANAP_LocationRelatedDataRequestTypeSpecificToGERANIuMode" (CDelegate "NativeEnumerated") "NativeEnumerated" (* src/ranap/RANAP_LocationRelatedDataRequestTypeSpecificToGERANIuMode.c:10-16 *);
    mkOwn "RANAP_ReportChangeOfSAI" (CDelegate "NativeEnumerated") "NativeEnumerated" (* src/ranap/RANAP_ReportChangeOfSAI.c:10-16 *);
    mkOwn "RANAP_PeriodicReportingIndicator" (CDelegate "NativeEnumerated") "NativeEnumerated" (* src/ranap/RANAP_PeriodicReportingIndicator.c:10-16 *);
    mkOwn "RANAP_VerticalAccuracyCode" (CRange (mkLit false 0) (mkLit false 127)) "NativeInteger" (* src/ranap/RANAP_VerticalAccuracyCode.c:10-33 *);
    mkOwn "RANAP_PositioningPriority" (CDelegate "NativeEnumerated") "NativeEnumerated" (* src/ranap/RANAP_PositioningPriority.c:10-16 *);
    mkOwn "RANAP_ResponseTime" (CDelegate "NativeEnumerated") "NativeEnumerated" (* src/ranap/RANAP_ResponseTime.c:10-16 *);
    mkOwn "RANAP_LoggingInterval" (CDelegate "NativeEnumerated") "NativeEnumerated" (* src/ranap/RANAP_LoggingInterval.c:10-16 *);
    mkOwn "RANAP_LoggingDuration" (CDelegate "NativeEnumerated") "NativeEnumerated" (* src/ranap/RANAP_LoggingDuration.c:10-16 *);
    mkOwn "RANAP_M4_Period" (CDelegate "NativeEnumerated") "NativeEnumerated" (* src/ranap/RANAP_M4-Period.c:10-16 *);
    mkOwn "RANAP_M4_Threshold" (CRange (mkLit false 0) (mkLit false 31)) "NativeInteger" (* src/ranap/RANAP_M4-Threshold.c:10-33 *);
    mkOwn "RANAP_M5_Period" (CDelegate "NativeEnumerated") "NativeEnumerated" (* src/ranap/RANAP_M5-Period.c:10-16 *);
    mkOwn "RANAP_M6_Period" (CDelegate "NativeEnumerated") "NativeEnumerated" (* src/ranap/RANAP_M6-Period.c:10-16 *);
    mkOwn "RANAP_M7_Period" (CDelegate "NativeEnumerated") "NativeEnumerated" (* src/ranap/RANAP_M7-Period.c:10-16 *);
    mkOwn "RANAP_MBMSBearerServiceType" (CDelegate "NativeEnumerated") "NativeEnumerated" (* src/ranap/RANAP_MBMSBearerServiceType.c:10-16 *);
    mkOwn "RANAP_MBMSCNDe_Registration" (CDelegate "NativeEnumerated") "NativeEnumerated" (* src/ranap/RANAP_MBMSCNDe-Registration.c:10-16 *);
    mkOwn "RANAP_MBMSCountingInformation" (CDelegate "NativeEnumerated") "NativeEnumerated" (* src/ranap/RANAP_MBMSCountingInformation.c:10-16 *);
    mkOwn "RANAP_MBMSHCIndicator" (CDelegate "NativeEnumerated") "NativeEnumerated" (* src/ranap/RANAP_MBMSHCIndicator.c:10-16 *);
    mkOwn "RANAP_MBMSLinkingInformation" (CDelegate "NativeEnumerated") "NativeEnumerated" (* src/ranap/RANAP_MBMSLinkingInformation.c:10-16 *);
    mkOwn "RANAP_MBMSRegistrationRequestType" (CDelegate "NativeEnumerated") "NativeEnumerated" (* src/ranap/RANAP_MBMSRegistrationRequestType.c:10-16 *);
    mkOwn "RANAP_MBMSServiceArea" (CDelegate "OCTET_STRING") "OCTET_STRING" (* src/ranap/RANAP_MBMSServiceArea.c:10-16 *);
    mkOwn "RANAP_MBMSSessionDuration" (COcts (SEq 3)) "OCTET_STRING" (* src/ranap/RANAP_MBMSSessionDuration.c:10-34 *);
    mkOwn "RANAP_MBMSSessionIdentity" (COcts (SEq 1)) "OCTET_STRING" (* src/ranap/RANAP_MBMSSessionIdentity.c:10-34 *);
    mkOwn "RANAP_MBMSSessionRepetitionNumber" (COcts (SEq 1)) "OCTET_STRING" (* src/ranap/RANAP_MBMSSessionRepetitionNumber.c:10-34 *);
    mkOwn "RANAP_MDT_Activation" (CDelegate "NativeEnumerated") "NativeEnumerated" (* src/ranap/RANAP_MDT-Activation.c:10-16 *);
    mkOwn "RANAP_MSISDN" (COcts (SIn 1 9)) "OCTET_STRING" (* src/ranap/RANAP_MSISDN.c:10-34 *);
    mkOwn "RANAP_Management_Based_MDT_Allowed" (CDelegate "NativeEnumerated") "NativeEnumerated" (* src/ranap/RANAP_Management-Based-MDT-Allowed.c:10-16 *);
    mkOwn "RANAP_MaxSDU_Size" (CRange (mkLit false 0) (mkLit false 32768)) "NativeInteger" (* src/ranap/RANAP_MaxSDU-Size.c:10-33 *);
    mkOwn "RANAP_RepetitionNumber1" (CRange (mkLit false 1) (mkLit false 256)) "NativeInteger" (* src/ranap/RANAP_RepetitionNumber1.c:10-33 *);
    mkOwn "RANAP_NAS_SequenceNumber" (CBits (SEq 2)) "BIT_STRING" (* src/ranap/RANAP_NAS-SequenceNumber.c:10-39 *);
    mkOwn "RANAP_NAS_SynchronisationIndicator" (CBits (SEq 4)) "BIT_STRING" (* src/ranap/RANAP_NAS-SynchronisationIndicator.c:10-39 *);
    mkOwn "RANAP_NewBSS_To_OldBSS_Information" (CDelegate "OCTET_STRING") "OCTET_STRING" (* src/ranap/RANAP_NewBSS-To-OldBSS-Information.c:10-16 *);
    mkOwn "RANAP_NonSearchingIndication" (CDelegate "NativeEnumerated") "NativeEnumerated" (* src/ranap/RANAP_NonSearchingIndication.c:10-16 *);
    mkOwn "RANAP_NumberOfIuInstances" (CRange (mkLit false 1) (mkLit false 2)) "NativeInteger" (* src/ranap/RANAP_NumberOfIuInstances.c:10-33 *);
    mkOwn "RANAP_NumberOfSteps" (CRange (mkLit false 1) (mkLit false 16)) "NativeInteger" (* src/ranap/RANAP_NumberOfSteps.c:10-33 *);
    mkOwn "RANAP_OMC_ID" (COcts (SIn 3 22)) "OCTET_STRING" (* src/ranap/RANAP_OMC-ID.c:10-34 *);
    mkOwn "RANAP_Offload_RAB_Parameters_APN" (COcts (SIn 1 255)) "OCTET_STRING" (* src/ranap/RANAP_Offload-RAB-Parameters-APN.c:10-34 *);
    mkOwn "RANAP_Offload_RAB_Parameters_ChargingCharacteristics" (COcts (SEq 2)) "OCTET_STRING" (* src/ranap/RANAP_Offload-RAB-Parameters-ChargingCharacteristics.c:10-34 *);
    mkOwn "RANAP_OldBSS_ToNewBSS_Information" (CDelegate "OCTET_STRING") "OCTET_STRING" (* src/ranap/RANAP_OldBSS-ToNewBSS-Information.c:10-16 *);
    mkOwn "RANAP_Out_Of_UTRAN" (CDelegate "NativeEnumerated") "NativeEnumerated" (* src/ranap/RANAP_Out-Of-UTRAN.c:10-16 *);
    mkOwn "RANAP_P_TMSI" (COcts (SEq 4)) "OCTET_STRING" (* src/ranap/RANAP_P-TMSI.c:10-34 *);
    mkOwn "RANAP_PDP_Type_extension" (CDelegate "NativeEnumerated") "NativeEnumerated" (* src/ranap/RANAP_PDP-Type-extension.c:10-16 *);
    mkOwn "RANAP_PDP_Type" (CDelegate "NativeEnumerated") "NativeEnumerated" (* src/ranap/RANAP_PDP-Type.c:10-16 *);
    mkOwn "RANAP_PDUType14FrameSequenceNumber" (CRange (mkLit false 0) (mkLit false 3)) "NativeInteger" (* src/ranap/RANAP_PDUType14FrameSequenceNumber.c:10-33 *);
    mkOwn "RANAP_PagingCause" (CDelegate "NativeEnumerated") "NativeEnumerated" (* src/ranap/RANAP_PagingCause.c:10-16 *);
    mkOwn "RANAP_Port_Number" (COcts (SEq 2)) "OCTET_STRING" (* src/ranap/RANAP_Port-Number.c:10-34 *);
    mkOwn "RANAP_PositioningDataDiscriminator" (CBits (SEq 4)) "BIT_STRING" (* src/ranap/RANAP_PositioningDataDiscriminator.c:10-39 *);
    mkOwn "RANAP_PositioningMethodAndUsage" (COcts (SEq 1)) "OCTET_STRING" (* src/ranap/RANAP_PositioningMethodAndUsage.c:10-34 *);
    mkOwn "RANAP_PositionDataSpecificToGERANIuMode" (CDelegate "OCTET_STRING") "OCTET_STRING" (* src/ranap/RANAP_PositionDataSpecificToGERANIuMode.c:10-16 *);
    mkOwn "RANAP_Presence" (CDelegate "NativeEnumerated") "NativeEnumerated" (* src/ranap/RANAP_Presence.c:10-16 *);
    mkOwn "RANAP_Priority_Class_Indicator" (CBits (SEq 8)) "BIT_STRING" (* src/ranap/RANAP_Priority-Class-Indicator.c:10-39 *);
    mkOwn "RANAP_ProtocolExtensionID" (CRange (mkLit false 0) (mkLit false 65535)) "NativeInteger" (* src/ranap/RANAP_ProtocolExtensionID.c:10-33 *);
    mkOwn "RANAP_RAB_AsymmetryIndicator" (CDelegate "NativeEnumerated") "NativeEnumerated" (* src/ranap/RANAP_RAB-AsymmetryIndicator.c:10-16 *);
    mkOwn "RANAP_UL_GTP_PDU_SequenceNumber" (CRange (mkLit false 0) (mkLit false 65535)) "NativeInteger" (* src/ranap/RANAP_UL-GTP-PDU-SequenceNumber.c:10-33 *);
    mkOwn "RANAP_UL_N_PDU_SequenceNumber" (CRange (mkLit false 0) (mkLit false 65535)) "NativeInteger" (* src/ranap/RANAP_UL-N-PDU-SequenceNumber.c:10-33 *);
    mkOwn "RANAP_TransportLayerAddress" (CBits (SIn 1 160)) "BIT_STRING" (* src/ranap/RANAP_TransportLayerAddress.c:10-39 *);
    mkOwn "RANAP_TrafficClass" (CDelegate "NativeEnumerated") "NativeEnumerated" (* src/ranap/RANAP_TrafficClass.c:10-16 *);
    mkOwn "RANAP_SubflowSDU_Size" (CRange (mkLit false 0) (mkLit false 4095)) "NativeInteger" (* src/ranap/RANAP_SubflowSDU-Size.c:10-33 *);
    mkOwn "RANAP_RAB_SubflowCombinationBitRate" (CRange (mkLit false 0) (mkLit false 16000000)) "NativeInteger" (* src/ranap/RANAP_RAB-SubflowCombinationBitRate.c:10-33 *);
    mkOwn "RANAP_TransferDelay" (CRange (mkLit false 0) (mkLit false 65535)) "NativeInteger" (* src/ranap/RANAP_TransferDelay.c:10-33 *);
    mkOwn "RANAP_TrafficHandlingPriority" (CRange (mkLit false 0) (mkLit false 15)) "NativeInteger" (* src/ranap/RANAP_TrafficHandlingPriority.c:10-33 *);
    mkOwn "RANAP_SourceStatisticsDescriptor" (CDelegate "NativeEnumerated") "NativeEnumerated" (* src/ranap/RANAP_SourceStatisticsDescriptor.c:10-16 *);
    mkOwn "RANAP_RelocationRequirement" (CDelegate "NativeEnumerated") "NativeEnumerated" (* src/ranap/RANAP_RelocationRequirement.c:10-16 *);
    mkOwn "RANAP_RAB_ReleaseFailedList" (CDelegate "RANAP_RAB_FailedList") "RANAP_RAB_FailedList" (* src/ranap/RANAP_RAB-ReleaseFailedList.c:11-17 *);
    mkOwn "RANAP_UserPlaneMode" (CDelegate "NativeEnumerated") "NativeEnumerated" (* src/ranap/RANAP_UserPlaneMode.c:10-16 *);
    mkOwn "RANAP_UP_ModeVersions" (CBits (SEq 16)) "BIT_STRING" (* src/ranap/RANAP_UP-ModeVersions.c:10-39 *);
    mkOwn "RANAP_Service_Handover" (CDelegate "NativeEnumerated") "NativeEnumerated" (* src/ranap/RANAP_Service-Handover.c:10-16 *);
    mkOwn "RANAP_RAB_SetupOrModifyList" (CDelegate "RANAP_RAB_IE_ContainerPairList") "RANAP_RAB_IE_ContainerPairList" (* src/ranap/RANAP_RAB-SetupOrModifyList.c:11-30 *);
    mkOwn "RANAP_USCH_ID" (CRange (mkLit false 0) (mkLit false 255)) "NativeInteger" (* src/ranap/RANAP_USCH-ID.c:10-33 *);
    mkOwn "RANAP_UPInitialisationFrame" (CDelegate "OCTET_STRING") "OCTET_STRING" (* src/ranap/RANAP_UPInitialisationFrame.c:10-16 *);
    mkOwn "RANAP_RAListofIdleModeUEs__emptyFullRAListofIdleModeUEs_3" (CDelegate "NativeEnumerated") "NativeEnumerated" (* src/ranap/RANAP_RAListofIdleModeUEs.c:10-16 *);
    mkOwn "RANAP_RAT_Type" (CDelegate "NativeEnumerated") "NativeEnumerated" (* src/ranap/RANAP_RAT-Type.c:10-16 *);
    mkOwn "RANAP_TraceRecordingSessionReference" (CRange (mkLit false 0) (mkLit false 65535)) "NativeInteger" (* src/ranap/RANAP_TraceRecordingSessionReference.c:10-33 *);
    mkOwn "RANAP_TraceDepth" (CDelegate "NativeEnumerated") "NativeEnumerated" (* src/ranap/RANAP_TraceDepth.c:10-16 *);
    mkOwn "RANAP_RRC_Container" (CDelegate "OCTET_STRING") "OCTET_STRING" (* src/ranap/RANAP_RRC-Container.c:10-16 *);
    mkOwn "RANAP_RSRQ_Extension" (CRange (mkLit true (-30)) (mkLit false 46)) "NativeInteger" (* src/ranap/RANAP_RSRQ-Extension.c:10-33 *);
    mkOwn "RANAP_RSRVCC_HO_Indication" (CDelegate "NativeEnumerated") "NativeEnumerated" (* src/ranap/RANAP_RSRVCC-HO-Indication.c:10-16 *);
    mkOwn "RANAP_RSRVCC_Operation_Possible" (CDelegate "NativeEnumerated") "NativeEnumerated" (* src/ranap/RANAP_RSRVCC-Operation-Possible.c:10-16 *);
    mkOwn "RANAP_RateControlAllowed" (CDelegate "NativeEnumerated") "NativeEnumerated" (* src/ranap/RANAP_RateControlAllowed.c:10-16 *);
    mkOwn "RANAP_RedirectAttemptFlag" (CDelegate "NULL") "NULL" (* src/ranap/RANAP_RedirectAttemptFlag.c:10-16 *);
    mkOwn "RANAP_RedirectionCompleted" (CDelegate "NativeEnumerated") "NativeEnumerated" (* src/ranap/RANAP_RedirectionCompleted.c:10-16 *);
    mkOwn "RANAP_RejectCauseValue" (CDelegate "NativeEnumerated") "NativeEnumerated" (* src/ranap/RANAP_RejectCauseValue.c:10-16 *);
    mkOwn "RANAP_RelocationType" (CDelegate "NativeEnumerated") "NativeEnumerated" (* src/ranap/RANAP_RelocationType.c:10-16 *);
    mkOwn "RANAP_ReportArea" (CDelegate "NativeEnumerated") "NativeEnumerated" (* src/ranap/RANAP_ReportArea.c:10-16 *);
    mkOwn "RANAP_RequestedGANSSAssistanceData" (COcts (SIn 1 201)) "OCTET_STRING" (* src/ranap/RANAP_RequestedGANSSAssistanceData.c:10-34 *);
    mkOwn "RANAP_SRB_ID" (CRange (mkLit false 1) (mkLit false 32)) "NativeInteger" (* src/ranap/RANAP_SRB-ID.c:10-33 *);
    mkOwn "RANAP_SRVCC_HO_Indication" (CDelegate "NativeEnumerated") "NativeEnumerated" (* src/ranap/RANAP_SRVCC-HO-Indication.c:10-16 *);
    mkOwn "RANAP_SRVCC_Operation_Possible" (CDelegate "NativeEnumerated") "NativeEnumerated" (* src/ranap/RANAP_SRVCC-Operation-Possible.c:10-16 *);
    mkOwn "RANAP_Session_Re_establishment_Indicator" (CDelegate "NativeEnumerated") "NativeEnumerated" (* src/ranap/RANAP_Session-Re-establishment-Indicator.c:10-16 *);
    mkOwn "RANAP_SessionUpdateID" (CRange (mkLit false 0) (mkLit false 1048575)) "NativeInteger" (* src/ranap/RANAP_SessionUpdateID.c:10-33 *);
    mkOwn "RANAP_SignallingIndication" (CDelegate "NativeEnumerated") "NativeEnumerated" (* src/ranap/RANAP_SignallingIndication.c:10-16 *);
    mkOwn "RANAP_Source_ToTarget_TransparentContainer" (CDelegate "OCTET_STRING") "OCTET_STRING" (* src/ranap/RANAP_Source-ToTarget-TransparentContainer.c:10-16 *);
    mkOwn "RANAP_SourceBSS_ToTargetBSS_TransparentContainer" (CDelegate "OCTET_STRING") "OCTET_STRING" (* src/ranap/RANAP_SourceBSS-ToTargetBSS-TransparentContainer.c:10-16 *);
    mkOwn "RANAP_SourceeNodeB_ToTargeteNodeB_TransparentContainer" (CDelegate "OCTET_STRING") "OCTET_STRING" (* src/ranap/RANAP_SourceeNodeB-ToTargeteNodeB-TransparentContainer.c:10-16 *);
    mkOwn "RANAP_SubscriberProfileIDforRFP" (CRange (mkLit false 1) (mkLit false 256)) "NativeInteger" (* src/ranap/RANAP_SubscriberProfileIDforRFP.c:10-33 *);
    mkOwn "RANAP_TBCD_STRING" (CDelegate "OCTET_STRING") "OCTET_STRING" (* src/ranap/RANAP_TBCD-STRING.c:10-16 *);
    mkOwn "RANAP_TMSI" (COcts (SEq 4)) "OCTET_STRING" (* src/ranap/RANAP_TMSI.c:10-34 *);
    mkOwn "RANAP_Target_ToSource_TransparentContainer" (CDelegate "OCTET_STRING") "OCTET_STRING" (* src/ranap/RANAP_Target-ToSource-TransparentContainer.c:10-16 *);
    mkOwn "RANAP_TargetBSS_ToSourceBSS_TransparentContainer" (CDelegate "OCTET_STRING") "OCTET_STRING" (* src/ranap/RANAP_TargetBSS-ToSourceBSS-TransparentContainer.c:10-16 *);
    mkOwn "RANAP_TargeteNodeB_ToSourceeNodeB_TransparentContainer" (CDelegate "OCTET_STRING") "OCTET_STRING" (* src/ranap/RANAP_TargeteNodeB-ToSourceeNodeB-TransparentContainer.c:10-16 *);
    mkOwn "RANAP_Time_UE_StayedInCell_EnhancedGranularity" (CRange (mkLit false 0) (mkLit false 40950)) "NativeInteger" (* src/ranap/RANAP_Time-UE-StayedInCell-EnhancedGranularity.c:10-33 *);
    mkOwn "RANAP_TimeToMBMSDataTransfer" (COcts (SEq 1)) "OCTET_STRING" (* src/ranap/RANAP_TimeToMBMSDataTransfer.c:10-34 *);
    mkOwn "RANAP_TimingDifferenceULDL" (COcts (SEq 1)) "OCTET_STRING" (* src/ranap/RANAP_TimingDifferenceULDL.c:10-34 *);
    mkOwn "RANAP_TraceType" (COcts (SEq 1)) "OCTET_STRING" (* src/ranap/RANAP_TraceType.c:10-34 *);
    mkOwn "RANAP_TriggerID" (COcts (SIn 3 22)) "OCTET_STRING" (* src/ranap/RANAP_TriggerID.c:10-34 *);
    mkOwn "RANAP_TypeOfError" (CDelegate "NativeEnumerated") "NativeEnumerated" (* src/ranap/RANAP_TypeOfError.c:10-16 *);
    mkOwn "RANAP_UE_AggregateMaximumBitRateDownlink" (CRange (mkLit false 1) (mkLit false 1000000000)) "NativeInteger" (* src/ranap/RANAP_UE-AggregateMaximumBitRateDownlink.c:10-33 *);
    mkOwn "RANAP_UE_AggregateMaximumBitRateUplink" (CRange (mkLit false 1) (mkLit false 1000000000)) "NativeInteger" (* src/ranap/RANAP_UE-AggregateMaximumBitRateUplink.c:10-33 *);
    mkOwn "RANAP_UE_History_Information" (CDelegate "OCTET_STRING") "OCTET_STRING" (* src/ranap/RANAP_UE-History-Information.c:10-16 *);
    mkOwn "RANAP_UESBI_IuA" (CBits (SIn 1 128)) "BIT_STRING" (* src/ranap/RANAP_UESBI-IuA.c:10-39 *);
    mkOwn "RANAP_UESBI_IuB" (CBits (SIn 1 128)) "BIT_STRING" (* src/ranap/RANAP_UESBI-IuB.c:10-39 *);
    mkOwn "RANAP_VoiceSupportMatchIndicator" (CDelegate "NativeEnumerated") "NativeEnumerated" (* src/ranap/RANAP_VoiceSupportMatchIndicator.c:10-16 *);
    mkOwn "RUA_Ansi_41_IDNNS" (CBits (SEq 14)) "BIT_STRING" (* src/rua/RUA_Ansi-41-IDNNS.c:10-39 *);
    mkOwn "RUA_CN_DomainIndicator" (CDelegate "NativeEnumerated") "NativeEnumerated" (* src/rua/RUA_CN-DomainIndicator.c:10-16 *);
    mkOwn "RUA_CSGMembershipStatus" (CDelegate "NativeEnumerated") "NativeEnumerated" (* src/rua/RUA_CSGMembershipStatus.c:10-16 *);
    mkOwn "RUA_CauseRadioNetwork" (CDelegate "NativeEnumerated") "NativeEnumerated" (* src/rua/RUA_CauseRadioNetwork.c:10-16 *);
    mkOwn "RUA_CauseTransport" (CDelegate "NativeEnumerated") "NativeEnumerated" (* src/rua/RUA_CauseTransport.c:10-16 *);
    mkOwn "RUA_CauseProtocol" (CDelegate "NativeEnumerated") "NativeEnumerated" (* src/rua/RUA_CauseProtocol.c:10-16 *);
    mkOwn "RUA_CauseMisc" (CDelegate "NativeEnumerated") "NativeEnumerated" (* src/rua/RUA_CauseMisc.c:10-16 *);
    mkOwn "RUA_ProtocolIE_ID" (CRange (mkLit false 0) (mkLit false 65535)) "NativeInteger" (* src/rua/RUA_ProtocolIE-ID.c:10-33 *);
    mkOwn "RUA_Criticality" (CDelegate "NativeEnumerated") "NativeEnumerated" (* src/rua/RUA_Criticality.c:10-16 *);
    mkOwn "RUA_Context_ID" (CBits (SEq 24)) "BIT_STRING" (* src/rua/RUA_Context-ID.c:10-39 *);
    mkOwn "RUA_TypeOfError" (CDelegate "NativeEnumerated") "NativeEnumerated" (* src/rua/RUA_TypeOfError.c:10-16 *);
    mkOwn "RUA_ProcedureCode" (CRange (mkLit false 0) (mkLit false 255)) "NativeInteger" (* src/rua/RUA_ProcedureCode.c:10-33 *);
    mkOwn "RUA_TriggeringMessage" (CDelegate "NativeEnumerated") "NativeEnumerated" (* src/rua/RUA_TriggeringMessage.c:10-16 *);
    mkOwn "RUA_Establishment_Cause" (CDelegate "NativeEnumerated") "NativeEnumerated" (* src/rua/RUA_Establishment-Cause.c:10-16 *);
    mkOwn "RUA_RoutingParameter" (CBits (SEq 10)) "BIT_STRING" (* src/rua/RUA_RoutingParameter.c:10-39 *);
    mkOwn "RUA_Presence" (CDelegate "NativeEnumerated") "NativeEnumerated" (* src/rua/RUA_Presence.c:10-16 *);
    mkOwn "RUA_RANAP_Message" (CDelegate "OCTET_STRING") "OCTET_STRING" (* src/rua/RUA_RANAP-Message.c:10-16 *);
    mkOwn "HNBAP_Access_stratum_release_indicator" (CDelegate "NativeEnumerated") "NativeEnumerated" (* src/hnbap/HNBAP_Access-stratum-release-indicator.c:10-16 *);
    mkOwn "HNBAP_AccessResult" (CDelegate "NativeEnumerated") "NativeEnumerated" (* src/hnbap/HNBAP_AccessResult.c:10-16 *);
    mkOwn "HNBAP_PLMNidentity" (COcts (SEq 3)) "OCTET_STRING" (* src/hnbap/HNBAP_PLMNidentity.c:10-34 *);
    mkOwn "HNBAP_CellIdentity" (CBits (SEq 28)) "BIT_STRING" (* src/hnbap/HNBAP_CellIdentity.c:10-39 *);
    mkOwn "HNBAP_ProtocolIE_ID" (CRange (mkLit false 0) (mkLit false 65535)) "NativeInteger" (* src/hnbap/HNBAP_ProtocolIE-ID.c:10-33 *);
    mkOwn "HNBAP_Criticality" (CDelegate "NativeEnumerated") "NativeEnumerated" (* src/hnbap/HNBAP_Criticality.c:10-16 *);
    mkOwn "HNBAP_PSC" (CBits (SEq 9)) "BIT_STRING" (* src/hnbap/HNBAP_PSC.c:10-39 *);
    mkOwn "HNBAP_CSG_ID" (CBits (SEq 27)) "BIT_STRING" (* src/hnbap/HNBAP_CSG-ID.c:10-39 *);
    mkOwn "HNBAP_HNB_Cell_Access_Mode" (CDelegate "NativeEnumerated") "NativeEnumerated" (* src/hnbap/HNBAP_HNB-Cell-Access-Mode.c:10-16 *);
    mkOwn "HNBAP_Ipv4Address" (COcts (SEq 4)) "OCTET_STRING" (* src/hnbap/HNBAP_Ipv4Address.c:10-34 *);
    mkOwn "HNBAP_Ipv6Address" (COcts (SEq 16)) "OCTET_STRING" (* src/hnbap/HNBAP_Ipv6Address.c:10-34 *);
    mkOwn "HNBAP_CauseRadioNetwork" (CDelegate "NativeEnumerated") "NativeEnumerated" (* src/hnbap/HNBAP_CauseRadioNetwork.c:10-16 *);
    mkOwn "HNBAP_CauseTransport" (CDelegate "NativeEnumerated") "NativeEnumerated" (* src/hnbap/HNBAP_CauseTransport.c:10-16 *);
    mkOwn "HNBAP_CauseProtocol" (CDelegate "NativeEnumerated") "NativeEnumerated" (* src/hnbap/HNBAP_CauseProtocol.c:10-16 *);
    mkOwn "HNBAP_CauseMisc" (CDelegate "NativeEnumerated") "NativeEnumerated" (* src/hnbap/HNBAP_CauseMisc.c:10-16 *);
    mkOwn "HNBAP_AltitudeAndDirection__directionOfAltitude_2" (CDelegate "NativeEnumerated") "NativeEnumerated" (* src/hnbap/HNBAP_AltitudeAndDirection.c:10-16 *);
    mkOwn "HNBAP_BackoffTimer" (CRange (mkLit false 0) (mkLit false 3600)) "NativeInteger" (* src/hnbap/HNBAP_BackoffTimer.c:10-33 *);
    mkOwn "HNBAP_BindingID" (COcts (SIn 1 4)) "OCTET_STRING" (* src/hnbap/HNBAP_BindingID.c:10-34 *);
    mkOwn "HNBAP_CELL_FACHMobilitySupport" (CDelegate "NativeEnumerated") "NativeEnumerated" (* src/hnbap/HNBAP_CELL-FACHMobilitySupport.c:10-16 *);
    mkOwn "HNBAP_LAC" (COcts (SEq 2)) "OCTET_STRING" (* src/hnbap/HNBAP_LAC.c:10-34 *);
    mkOwn "HNBAP_CI" (COcts (SEq 2)) "OCTET_STRING" (* src/hnbap/HNBAP_CI.c:10-34 *);
    mkOwn "HNBAP_CN_DomainIndicator" (CDelegate "NativeEnumerated") "NativeEnumerated" (* src/hnbap/HNBAP_CN-DomainIndicator.c:10-16 *);
    mkOwn "HNBAP_CSG_Capability" (CDelegate "NativeEnumerated") "NativeEnumerated" (* src/hnbap/HNBAP_CSG-Capability.c:10-16 *);
    mkOwn "HNBAP_CSGMembershipStatus" (CDelegate "NativeEnumerated") "NativeEnumerated" (* src/hnbap/HNBAP_CSGMembershipStatus.c:10-16 *);
    mkOwn "HNBAP_Context_ID" (CBits (SEq 24)) "BIT_STRING" (* src/hnbap/HNBAP_Context-ID.c:10-39 *);
    mkOwn "HNBAP_TypeOfError" (CDelegate "NativeEnumerated") "NativeEnumerated" (* src/hnbap/HNBAP_TypeOfError.c:10-16 *);
    mkOwn "HNBAP_ProcedureCode" (CRange (mkLit false 0) (mkLit false 255)) "NativeInteger" (* src/hnbap/HNBAP_ProcedureCode.c:10-33 *);
    mkOwn "HNBAP_TriggeringMessage" (CDelegate "NativeEnumerated") "NativeEnumerated" (* src/hnbap/HNBAP_TriggeringMessage.c:10-16 *);
    mkOwn "HNBAP_ESN" (CBits (SEq 32)) "BIT_STRING" (* src/hnbap/HNBAP_ESN.c:10-39 *);
    mkOwn "HNBAP_GTP_TEI" (COcts (SEq 4)) "OCTET_STRING" (* src/hnbap/HNBAP_GTP-TEI.c:10-34 *);
    mkOwn "HNBAP_GeographicalCoordinates__latitudeSign_2" (CDelegate "NativeEnumerated") "NativeEnumerated" (* src/hnbap/HNBAP_GeographicalCoordinates.c:10-16 *);
    mkOwn "HNBAP_RNC_ID" (CRange (mkLit false 0) (mkLit false 65535)) "NativeInteger" (* src/hnbap/HNBAP_RNC-ID.c:10-33 *);
    mkOwn "HNBAP_UnknownU_RNTIIndication" (CDelegate "NativeEnumerated") "NativeEnumerated" (* src/hnbap/HNBAP_UnknownU-RNTIIndication.c:10-16 *);
    mkOwn "HNBAP_HNB_Identity_Info" (COcts (SIn 1 255)) "OCTET_STRING" (* src/hnbap/HNBAP_HNB-Identity-Info.c:10-34 *);
    mkOwn "HNBAP_RAC" (COcts (SEq 1)) "OCTET_STRING" (* src/hnbap/HNBAP_RAC.c:10-34 *);
    mkOwn "HNBAP_HNBCapacity" (CRange (mkLit false 0) (mkLit false 1000)) "NativeInteger" (* src/hnbap/HNBAP_HNBCapacity.c:10-33 *);
    mkOwn "HNBAP_IMEI" (CBits (SEq 60)) "BIT_STRING" (* src/hnbap/HNBAP_IMEI.c:10-39 *);
    mkOwn "HNBAP_IMSI" (COcts (SIn 3 8)) "OCTET_STRING" (* src/hnbap/HNBAP_IMSI.c:10-34 *);
    mkOwn "HNBAP_IMSIDS41" (COcts (SIn 5 7)) "OCTET_STRING" (* src/hnbap/HNBAP_IMSIDS41.c:10-34 *);
    mkOwn "HNBAP_MuxPortNumber" (CRange (mkLit false 1024) (mkLit false 65535)) "NativeInteger" (* src/hnbap/HNBAP_MuxPortNumber.c:10-33 *);
    mkOwn "HNBAP_PTMSI" (CBits (SEq 32)) "BIT_STRING" (* src/hnbap/HNBAP_PTMSI.c:10-39 *);
    mkOwn "HNBAP_Presence" (CDelegate "NativeEnumerated") "NativeEnumerated" (* src/hnbap/HNBAP_Presence.c:10-16 *);
    mkOwn "HNBAP_RAB_ID" (CBits (SEq 8)) "BIT_STRING" (* src/hnbap/HNBAP_RAB-ID.c:10-39 *);
    mkOwn "HNBAP_TransportLayerAddress" (CBits (SIn 1 160)) "BIT_STRING" (* src/hnbap/HNBAP_TransportLayerAddress.c:10-39 *);
    mkOwn "HNBAP_Registration_Cause" (CDelegate "NativeEnumerated") "NativeEnumerated" (* src/hnbap/HNBAP_Registration-Cause.c:10-16 *);
    mkOwn "HNBAP_S_RNTIPrefix" (CBits (SIn 1 16)) "BIT_STRING" (* src/hnbap/HNBAP_S-RNTIPrefix.c:10-39 *);
    mkOwn "HNBAP_SAC" (COcts (SEq 2)) "OCTET_STRING" (* src/hnbap/HNBAP_SAC.c:10-34 *);
    mkOwn "HNBAP_TMSIDS41" (COcts (SIn 2 17)) "OCTET_STRING" (* src/hnbap/HNBAP_TMSIDS41.c:10-34 *);
    mkOwn "HNBAP_UDP_Port_Number" (COcts (SEq 2)) "OCTET_STRING" (* src/hnbap/HNBAP_UDP-Port-Number.c:10-34 *);
    mkOwn "HNBAP_U_RNTI" (CBits (SEq 32)) "BIT_STRING" (* src/hnbap/HNBAP_U-RNTI.c:10-39 *);
    mkOwn "HNBAP_URAIdentity" (CRange (mkLit false 0) (mkLit false 65535)) "NativeInteger" (* src/hnbap/HNBAP_URAIdentity.c:10-33 *);
    mkOwn "HNBAP_Update_cause" (CDelegate "NativeEnumerated") "NativeEnumerated" (* src/hnbap/HNBAP_Update-cause.c:10-16 *);
    mkOwn "SABP_Available_Bandwidth" (CRange (mkLit false 0) (mkLit false 20480)) "NativeInteger" (* src/sabp/SABP_Available-Bandwidth.c:10-33 *);
    mkOwn "SABP_Broadcast_Message_Content_Validity_Indicator" (CDelegate "NativeEnumerated") "NativeEnumerated" (* src/sabp/SABP_Broadcast-Message-Content-Validity-Indicator.c:10-16 *);
    mkOwn "SABP_Broadcast_Message_Content" (CBits (SIn 1 9968)) "BIT_STRING" (* src/sabp/SABP_Broadcast-Message-Content.c:10-39 *);
    mkOwn "SABP_Category" (CDelegate "NativeEnumerated") "NativeEnumerated" (* src/sabp/SABP_Category.c:10-16 *);
    mkOwn "SABP_Cause" (CRange (mkLit false 0) (mkLit false 255)) "NativeInteger" (* src/sabp/SABP_Cause.c:10-33 *);
    mkOwn "SABP_ProcedureCode" (CRange (mkLit false 0) (mkLit false 255)) "NativeInteger" (* src/sabp/SABP_ProcedureCode.c:10-33 *);
    mkOwn "SABP_TriggeringMessage" (CDelegate "NativeEnumerated") "NativeEnumerated" (* src/sabp/SABP_TriggeringMessage.c:10-16 *);
    mkOwn "SABP_Criticality" (CDelegate "NativeEnumerated") "NativeEnumerated" (* src/sabp/SABP_Criticality.c:10-16 *);
    mkOwn "SABP_ProtocolIE_ID" (CRange (mkLit false 0) (mkLit false 65535)) "NativeInteger" (* src/sabp/SABP_ProtocolIE-ID.c:10-33 *);
    mkOwn "SABP_RepetitionNumber0" (CRange (mkLit false 0) (mkLit false 255)) "NativeInteger" (* src/sabp/SABP_RepetitionNumber0.c:10-33 *);
    mkOwn "SABP_Data_Coding_Scheme" (CBits (SEq 8)) "BIT_STRING" (* src/sabp/SABP_Data-Coding-Scheme.c:10-39 *);
    mkOwn "SABP_Message_Identifier" (CBits (SEq 16)) "BIT_STRING" (* src/sabp/SABP_Message-Identifier.c:10-39 *);
    mkOwn "SABP_RepetitionNumber1" (CRange (mkLit false 1) (mkLit false 256)) "NativeInteger" (* src/sabp/SABP_RepetitionNumber1.c:10-33 *);
    mkOwn "SABP_New_Serial_Number" (CDelegate "SABP_Serial_Number") "SABP_Serial_Number" (* src/sabp/SABP_New-Serial-Number.c:10-29 *);
    mkOwn "SABP_Number_Of_Broadcasts_Completed_Info" (CDelegate "NativeEnumerated") "NativeEnumerated" (* src/sabp/SABP_Number-Of-Broadcasts-Completed-Info.c:10-16 *);
    mkOwn "SABP_Number_of_Broadcasts_Requested" (CRange (mkLit false 0) (mkLit false 65535)) "NativeInteger" (* src/sabp/SABP_Number-of-Broadcasts-Requested.c:10-33 *);
    mkOwn "SABP_Old_Serial_Number" (CDelegate "SABP_Serial_Number") "SABP_Serial_Number" (* src/sabp/SABP_Old-Serial-Number.c:10-29 *);
    mkOwn "SABP_Paging_ETWS_Indicator" (CDelegate "NativeEnumerated") "NativeEnumerated" (* src/sabp/SABP_Paging-ETWS-Indicator.c:10-16 *);
    mkOwn "SABP_Presence" (CDelegate "NativeEnumerated") "NativeEnumerated" (* src/sabp/SABP_Presence.c:10-16 *);
    mkOwn "SABP_ProtocolExtensionID" (CRange (mkLit false 0) (mkLit false 65535)) "NativeInteger" (* src/sabp/SABP_ProtocolExtensionID.c:10-33 *);
    mkOwn "SABP_Recovery_Indication" (CDelegate "NativeEnumerated") "NativeEnumerated" (* src/sabp/SABP_Recovery-Indication.c:10-16 *);
    mkOwn "SABP_Repetition_Period" (CRange (mkLit false 1) (mkLit false 4096)) "NativeInteger" (* src/sabp/SABP_Repetition-Period.c:10-33 *);
    mkOwn "SABP_Serial_Number" (CBits (SEq 16)) "BIT_STRING" (* src/sabp/SABP_Serial-Number.c:10-39 *);
    mkOwn "SABP_TypeOfError" (CDelegate "NativeEnumerated") "NativeEnumerated" (* src/sabp/SABP_TypeOfError.c:10-16 *);
    mkOwn "SABP_Warning_Type" (COcts (SEq 2)) "OCTET_STRING" (* src/sabp/SABP_Warning-Type.c:10-34 *);
    mkOwn "SABP_WarningSecurityInfo" (COcts (SEq 50)) "OCTET_STRING" (* src/sabp/SABP_WarningSecurityInfo.c:10-34 *) ].

(* descriptor, number of the member, the function in the member table: the
   memb_*_constraint_* in the asn_MBR_* tables *)
Definition member_checks : list (string * nat * cfun) :=
  [ ("RANAP_GeographicalCoordinates", 1%nat, CRange (mkLit false 0) (mkLit false 8388607)) (* src/ranap/RANAP_GeographicalCoordinates.c:116-139 *);
    ("RANAP_GeographicalCoordinates", 2%nat, CRange (mkLit true (-8388608)) (mkLit false 8388607)) (* src/ranap/RANAP_GeographicalCoordinates.c:141-164 *);
    ("RANAP_GA_PointWithUnCertainty", 2%nat, CRange (mkLit false 0) (mkLit false 127)) (* src/ranap/RANAP_GA-PointWithUnCertainty.c:10-33 *);
    ("RANAP_GA_UncertaintyEllipse", 0%nat, CRange (mkLit false 0) (mkLit false 127)) (* src/ranap/RANAP_GA-UncertaintyEllipse.c:10-33 *);
    ("RANAP_GA_UncertaintyEllipse", 1%nat, CRange (mkLit false 0) (mkLit false 127)) (* src/ranap/RANAP_GA-UncertaintyEllipse.c:35-58 *);
    ("RANAP_GA_UncertaintyEllipse", 2%nat, CRange (mkLit false 0) (mkLit false 179)) (* src/ranap/RANAP_GA-UncertaintyEllipse.c:60-83 *);
    ("RANAP_GA_PointWithUnCertaintyEllipse", 2%nat, CRange (mkLit false 0) (mkLit false 127)) (* src/ranap/RANAP_GA-PointWithUnCertaintyEllipse.c:10-33 *);
    ("RANAP_GA_AltitudeAndDirection", 1%nat, CRange (mkLit false 0) (mkLit false 32767)) (* src/ranap/RANAP_GA-AltitudeAndDirection.c:116-139 *);
    ("RANAP_GA_PointWithAltitudeAndUncertaintyEllipsoid", 3%nat, CRange (mkLit false 0) (mkLit false 127)) (* src/ranap/RANAP_GA-PointWithAltitudeAndUncertaintyEllipsoid.c:10-33 *);
    ("RANAP_GA_PointWithAltitudeAndUncertaintyEllipsoid", 4%nat, CRange (mkLit false 0) (mkLit false 127)) (* src/ranap/RANAP_GA-PointWithAltitudeAndUncertaintyEllipsoid.c:35-58 *);
    ("RANAP_GA_EllipsoidArc", 1%nat, CRange (mkLit false 0) (mkLit false 65535)) (* src/ranap/RANAP_GA-EllipsoidArc.c:10-33 *);
    ("RANAP_GA_EllipsoidArc", 2%nat, CRange (mkLit false 0) (mkLit false 127)) (* src/ranap/RANAP_GA-EllipsoidArc.c:35-58 *);
    ("RANAP_GA_EllipsoidArc", 3%nat, CRange (mkLit false 0) (mkLit false 179)) (* src/ranap/RANAP_GA-EllipsoidArc.c:60-83 *);
    ("RANAP_GA_EllipsoidArc", 4%nat, CRange (mkLit false 0) (mkLit false 179)) (* src/ranap/RANAP_GA-EllipsoidArc.c:85-108 *);
    ("RANAP_GA_EllipsoidArc", 5%nat, CRange (mkLit false 0) (mkLit false 127)) (* src/ranap/RANAP_GA-EllipsoidArc.c:110-133 *);
    ("RANAP_BroadcastAssistanceDataDecipheringKeys", 0%nat, CBits (SEq 1)) (* src/ranap/RANAP_BroadcastAssistanceDataDecipheringKeys.c:10-39 *);
    ("RANAP_BroadcastAssistanceDataDecipheringKeys", 1%nat, CBits (SEq 56)) (* src/ranap/RANAP_BroadcastAssistanceDataDecipheringKeys.c:41-70 *);
    ("RANAP_BroadcastAssistanceDataDecipheringKeys", 2%nat, CBits (SEq 56)) (* src/ranap/RANAP_BroadcastAssistanceDataDecipheringKeys.c:72-101 *);
    ("RANAP_CN_DeactivateTrace", 0%nat, CElems (SMax 65535)) (* src/ranap/RANAP_CN-DeactivateTrace.c:10-34 *);
    ("RANAP_CN_InvokeTrace", 0%nat, CElems (SMax 65535)) (* src/ranap/RANAP_CN-InvokeTrace.c:10-34 *);
    ("RANAP_TMGI", 1%nat, COcts (SEq 3)) (* src/ranap/RANAP_TMGI.c:10-34 *);
    ("RANAP_CommonID", 0%nat, CElems (SMax 65535)) (* src/ranap/RANAP_CommonID.c:10-34 *);
    ("RANAP_DataVolumeReport", 0%nat, CElems (SMax 65535)) (* src/ranap/RANAP_DataVolumeReport.c:10-34 *);
    ("RANAP_DataVolumeReportList", 0%nat, CElems (SMax 65535)) (* src/ranap/RANAP_DataVolumeReportList.c:10-34 *);
    ("RANAP_DataVolumeReportRequest", 0%nat, CElems (SMax 65535)) (* src/ranap/RANAP_DataVolumeReportRequest.c:10-34 *);
    ("RANAP_DirectInformationTransfer", 0%nat, CElems (SMax 65535)) (* src/ranap/RANAP_DirectInformationTransfer.c:10-34 *);
    ("RANAP_DirectTransfer", 0%nat, CElems (SMax 65535)) (* src/ranap/RANAP_DirectTransfer.c:10-34 *);
    ("RANAP_ENB_ID", 0%nat, CBits (SEq 20)) (* src/ranap/RANAP_ENB-ID.c:10-39 *);
    ("RANAP_ENB_ID", 1%nat, CBits (SEq 28)) (* src/ranap/RANAP_ENB-ID.c:41-70 *);
    ("RANAP_EUTRANFrequencies_Value", 0%nat, CRange (mkLit false 0) (mkLit false 65535)) (* src/ranap/RANAP_EUTRANFrequencies-Value.c:10-33 *);
    ("RANAP_EnhancedRelocationCompleteConfirm", 0%nat, CElems (SMax 65535)) (* src/ranap/RANAP_EnhancedRelocationCompleteConfirm.c:10-34 *);
    ("RANAP_EnhancedRelocationCompleteFailure", 0%nat, CElems (SMax 65535)) (* src/ranap/RANAP_EnhancedRelocationCompleteFailure.c:10-34 *);
    ("RANAP_EnhancedRelocationCompleteRequest", 0%nat, CElems (SMax 65535)) (* src/ranap/RANAP_EnhancedRelocationCompleteRequest.c:10-34 *);
    ("RANAP_EnhancedRelocationCompleteResponse", 0%nat, CElems (SMax 65535)) (* src/ranap/RANAP_EnhancedRelocationCompleteResponse.c:10-34 *);
    ("RANAP_IMEIGroup", 1%nat, CBits (SEq 7)) (* src/ranap/RANAP_IMEIGroup.c:10-39 *);
    ("RANAP_IMEISVGroup", 1%nat, CBits (SEq 7)) (* src/ranap/RANAP_IMEISVGroup.c:10-39 *);
    ("RANAP_ErrorIndication", 0%nat, CElems (SMax 65535)) (* src/ranap/RANAP_ErrorIndication.c:10-34 *);
    ("RANAP_Event1F_Parameters", 1%nat, CRange (mkLit true (-120)) (mkLit false 165)) (* src/ranap/RANAP_Event1F-Parameters.c:10-33 *);
    ("RANAP_Event1I_Parameters", 0%nat, CRange (mkLit true (-120)) (mkLit true (-25))) (* src/ranap/RANAP_Event1I-Parameters.c:10-33 *);
    ("RANAP_ForwardSRNS_Context", 0%nat, CElems (SMax 65535)) (* src/ranap/RANAP_ForwardSRNS-Context.c:10-34 *);
    ("RANAP_GERAN_Iumode_RAB_Failed_RABAssgntResponse_List", 0%nat, CElems (SMax 65535)) (* src/ranap/RANAP_GERAN-Iumode-RAB-Failed-RABAssgntResponse-List.c:10-34 *);
    ("RANAP_HorizontalSpeedAndBearing", 0%nat, CRange (mkLit false 0) (mkLit false 359)) (* src/ranap/RANAP_HorizontalSpeedAndBearing.c:10-33 *);
    ("RANAP_HorizontalSpeedAndBearing", 1%nat, CRange (mkLit false 0) (mkLit false 2047)) (* src/ranap/RANAP_HorizontalSpeedAndBearing.c:35-58 *);
    ("RANAP_HorizontalVelocityWithUncertainty", 1%nat, CRange (mkLit false 0) (mkLit false 255)) (* src/ranap/RANAP_HorizontalVelocityWithUncertainty.c:10-33 *);
    ("RANAP_VerticalVelocity", 0%nat, CRange (mkLit false 0) (mkLit false 255)) (* src/ranap/RANAP_VerticalVelocity.c:10-33 *);
    ("RANAP_HorizontalWithVerticalVelocityAndUncertainty", 2%nat, CRange (mkLit false 0) (mkLit false 255)) (* src/ranap/RANAP_HorizontalWithVerticalVelocityAndUncertainty.c:10-33 *);
    ("RANAP_HorizontalWithVerticalVelocityAndUncertainty", 3%nat, CRange (mkLit false 0) (mkLit false 255)) (* src/ranap/RANAP_HorizontalWithVerticalVelocityAndUncertainty.c:35-58 *);
    ("RANAP_IRATmeasurementParameters", 0%nat, CRange (mkLit false 1) (mkLit false 100)) (* src/ranap/RANAP_IRATmeasurementParameters.c:10-33 *);
    ("RANAP_IRAT_Measurement_Configuration", 0%nat, CRange (mkLit false 0) (mkLit false 97)) (* src/ranap/RANAP_IRAT-Measurement-Configuration.c:10-33 *);
    ("RANAP_IRAT_Measurement_Configuration", 1%nat, CRange (mkLit false 0) (mkLit false 34)) (* src/ranap/RANAP_IRAT-Measurement-Configuration.c:35-58 *);
    ("RANAP_InformationTransferConfirmation", 0%nat, CElems (SMax 65535)) (* src/ranap/RANAP_InformationTransferConfirmation.c:10-34 *);
    ("RANAP_InformationTransferFailure", 0%nat, CElems (SMax 65535)) (* src/ranap/RANAP_InformationTransferFailure.c:10-34 *);
    ("RANAP_InformationTransferIndication", 0%nat, CElems (SMax 65535)) (* src/ranap/RANAP_InformationTransferIndication.c:10-34 *);
    ("RANAP_InitialUE_Message", 0%nat, CElems (SMax 65535)) (* src/ranap/RANAP_InitialUE-Message.c:10-34 *);
    ("RANAP_Iu_ReleaseCommand", 0%nat, CElems (SMax 65535)) (* src/ranap/RANAP_Iu-ReleaseCommand.c:10-34 *);
    ("RANAP_Iu_ReleaseComplete", 0%nat, CElems (SMax 65535)) (* src/ranap/RANAP_Iu-ReleaseComplete.c:10-34 *);
    ("RANAP_Iu_ReleaseRequest", 0%nat, CElems (SMax 65535)) (* src/ranap/RANAP_Iu-ReleaseRequest.c:10-34 *);
    ("RANAP_LastKnownServiceArea", 1%nat, CRange (mkLit false 0) (mkLit false 32767)) (* src/ranap/RANAP_LastKnownServiceArea.c:10-33 *);
    ("RANAP_LocationRelatedDataFailure", 0%nat, CElems (SMax 65535)) (* src/ranap/RANAP_LocationRelatedDataFailure.c:10-34 *);
    ("RANAP_LocationRelatedDataRequest", 0%nat, CElems (SMax 65535)) (* src/ranap/RANAP_LocationRelatedDataRequest.c:10-34 *);
    ("RANAP_LocationRelatedDataResponse", 0%nat, CElems (SMax 65535)) (* src/ranap/RANAP_LocationRelatedDataResponse.c:10-34 *);
    ("RANAP_LocationReport", 0%nat, CElems (SMax 65535)) (* src/ranap/RANAP_LocationReport.c:10-34 *);
    ("RANAP_LocationReportingControl", 0%nat, CElems (SMax 65535)) (* src/ranap/RANAP_LocationReportingControl.c:10-34 *);
    ("RANAP_PeriodicLocationInfo", 0%nat, CRange (mkLit false 1) (mkLit false 8639999)) (* src/ranap/RANAP_PeriodicLocationInfo.c:10-33 *);
    ("RANAP_PeriodicLocationInfo", 1%nat, CRange (mkLit false 1) (mkLit false 8639999)) (* src/ranap/RANAP_PeriodicLocationInfo.c:35-58 *);
    ("RANAP_MBMSCNDe_RegistrationRequest", 0%nat, CElems (SMax 65535)) (* src/ranap/RANAP_MBMSCNDe-RegistrationRequest.c:10-34 *);
    ("RANAP_MBMSCNDe_RegistrationResponse", 0%nat, CElems (SMax 65535)) (* src/ranap/RANAP_MBMSCNDe-RegistrationResponse.c:10-34 *);
    ("RANAP_MBMSRABEstablishmentIndication", 0%nat, CElems (SMax 65535)) (* src/ranap/RANAP_MBMSRABEstablishmentIndication.c:10-34 *);
    ("RANAP_MBMSRABRelease", 0%nat, CElems (SMax 65535)) (* src/ranap/RANAP_MBMSRABRelease.c:10-34 *);
    ("RANAP_MBMSRABReleaseFailure", 0%nat, CElems (SMax 65535)) (* src/ranap/RANAP_MBMSRABReleaseFailure.c:10-34 *);
    ("RANAP_MBMSRABReleaseRequest", 0%nat, CElems (SMax 65535)) (* src/ranap/RANAP_MBMSRABReleaseRequest.c:10-34 *);
    ("RANAP_MBMSRegistrationFailure", 0%nat, CElems (SMax 65535)) (* src/ranap/RANAP_MBMSRegistrationFailure.c:10-34 *);
    ("RANAP_MBMSRegistrationRequest", 0%nat, CElems (SMax 65535)) (* src/ranap/RANAP_MBMSRegistrationRequest.c:10-34 *);
    ("RANAP_MBMSRegistrationResponse", 0%nat, CElems (SMax 65535)) (* src/ranap/RANAP_MBMSRegistrationResponse.c:10-34 *);
    ("RANAP_MBMSSessionStart", 0%nat, CElems (SMax 65535)) (* src/ranap/RANAP_MBMSSessionStart.c:10-34 *);
    ("RANAP_MBMSSessionStartFailure", 0%nat, CElems (SMax 65535)) (* src/ranap/RANAP_MBMSSessionStartFailure.c:10-34 *);
    ("RANAP_MBMSSessionStartResponse", 0%nat, CElems (SMax 65535)) (* src/ranap/RANAP_MBMSSessionStartResponse.c:10-34 *);
    ("RANAP_MBMSSessionStop", 0%nat, CElems (SMax 65535)) (* src/ranap/RANAP_MBMSSessionStop.c:10-34 *);
    ("RANAP_MBMSSessionStopResponse", 0%nat, CElems (SMax 65535)) (* src/ranap/RANAP_MBMSSessionStopResponse.c:10-34 *);
    ("RANAP_MBMSSessionUpdate", 0%nat, CElems (SMax 65535)) (* src/ranap/RANAP_MBMSSessionUpdate.c:10-34 *);
    ("RANAP_MBMSSessionUpdateFailure", 0%nat, CElems (SMax 65535)) (* src/ranap/RANAP_MBMSSessionUpdateFailure.c:10-34 *);
    ("RANAP_MBMSSessionUpdateResponse", 0%nat, CElems (SMax 65535)) (* src/ranap/RANAP_MBMSSessionUpdateResponse.c:10-34 *);
    ("RANAP_MBMSUELinkingRequest", 0%nat, CElems (SMax 65535)) (* src/ranap/RANAP_MBMSUELinkingRequest.c:10-34 *);
    ("RANAP_MBMSUELinkingResponse", 0%nat, CElems (SMax 65535)) (* src/ranap/RANAP_MBMSUELinkingResponse.c:10-34 *);
    ("RANAP_Overload", 0%nat, CElems (SMax 65535)) (* src/ranap/RANAP_Overload.c:10-34 *);
    ("RANAP_Paging", 0%nat, CElems (SMax 65535)) (* src/ranap/RANAP_Paging.c:10-34 *);
    ("RANAP_PrivateIE_ID", 0%nat, CRange (mkLit false 0) (mkLit false 65535)) (* src/ranap/RANAP_PrivateIE-ID.c:10-33 *);
    ("RANAP_PrivateMessage", 0%nat, CElems (SMax 65535)) (* src/ranap/RANAP_PrivateMessage.c:10-34 *);
    ("RANAP_RAB_AssignmentRequest", 0%nat, CElems (SMax 65535)) (* src/ranap/RANAP_RAB-AssignmentRequest.c:10-34 *);
    ("RANAP_RAB_AssignmentResponse", 0%nat, CElems (SMax 65535)) (* src/ranap/RANAP_RAB-AssignmentResponse.c:10-34 *);
    ("RANAP_RAB_ContextList_RANAP_RelocInf", 0%nat, CElems (SMax 65535)) (* src/ranap/RANAP_RAB-ContextList-RANAP-RelocInf.c:10-34 *);
    ("RANAP_RAB_ContextList", 0%nat, CElems (SMax 65535)) (* src/ranap/RANAP_RAB-ContextList.c:10-34 *);
    ("RANAP_RAB_DataForwardingList_SRNS_CtxReq", 0%nat, CElems (SMax 65535)) (* src/ranap/RANAP_RAB-DataForwardingList-SRNS-CtxReq.c:10-34 *);
    ("RANAP_RAB_DataForwardingList", 0%nat, CElems (SMax 65535)) (* src/ranap/RANAP_RAB-DataForwardingList.c:10-34 *);
    ("RANAP_RAB_DataVolumeReportList", 0%nat, CElems (SMax 65535)) (* src/ranap/RANAP_RAB-DataVolumeReportList.c:10-34 *);
    ("RANAP_RAB_DataVolumeReportRequestList", 0%nat, CElems (SMax 65535)) (* src/ranap/RANAP_RAB-DataVolumeReportRequestList.c:10-34 *);
    ("RANAP_RAB_FailedList_EnhRelocInfoRes", 0%nat, CElems (SMax 65535)) (* src/ranap/RANAP_RAB-FailedList-EnhRelocInfoRes.c:10-34 *);
    ("RANAP_RAB_FailedList", 0%nat, CElems (SMax 65535)) (* src/ranap/RANAP_RAB-FailedList.c:10-34 *);
    ("RANAP_RAB_ModifyList", 0%nat, CElems (SMax 65535)) (* src/ranap/RANAP_RAB-ModifyList.c:10-34 *);
    ("RANAP_RAB_ModifyRequest", 0%nat, CElems (SMax 65535)) (* src/ranap/RANAP_RAB-ModifyRequest.c:10-34 *);
    ("RANAP_SDU_ErrorRatio", 0%nat, CRange (mkLit false 1) (mkLit false 9)) (* src/ranap/RANAP_SDU-ErrorRatio.c:10-33 *);
    ("RANAP_SDU_ErrorRatio", 1%nat, CRange (mkLit false 1) (mkLit false 6)) (* src/ranap/RANAP_SDU-ErrorRatio.c:35-58 *);
    ("RANAP_ResidualBitErrorRatio", 0%nat, CRange (mkLit false 1) (mkLit false 9)) (* src/ranap/RANAP_ResidualBitErrorRatio.c:10-33 *);
    ("RANAP_ResidualBitErrorRatio", 1%nat, CRange (mkLit false 1) (mkLit false 8)) (* src/ranap/RANAP_ResidualBitErrorRatio.c:35-58 *);
    ("RANAP_RAB_QueuedList", 0%nat, CElems (SMax 65535)) (* src/ranap/RANAP_RAB-QueuedList.c:10-34 *);
    ("RANAP_RAB_ReleaseList", 0%nat, CElems (SMax 65535)) (* src/ranap/RANAP_RAB-ReleaseList.c:11-35 *);
    ("RANAP_RAB_ReleaseRequest", 0%nat, CElems (SMax 65535)) (* src/ranap/RANAP_RAB-ReleaseRequest.c:10-34 *);
    ("RANAP_RAB_ReleasedList_IuRelComp", 0%nat, CElems (SMax 65535)) (* src/ranap/RANAP_RAB-ReleasedList-IuRelComp.c:10-34 *);
    ("RANAP_RAB_ReleasedList", 0%nat, CElems (SMax 65535)) (* src/ranap/RANAP_RAB-ReleasedList.c:10-34 *);
    ("RANAP_RAB_RelocationReleaseList", 0%nat, CElems (SMax 65535)) (* src/ranap/RANAP_RAB-RelocationReleaseList.c:10-34 *);
    ("RANAP_RAB_ToBeReleasedList_EnhancedRelocCompleteRes", 0%nat, CElems (SMax 65535)) (* src/ranap/RANAP_RAB-ToBeReleasedList-EnhancedRelocCompleteRes.c:10-34 *);
    ("RANAP_RAB_SetupList_EnhRelocInfoReq", 0%nat, CElems (SMax 65535)) (* src/ranap/RANAP_RAB-SetupList-EnhRelocInfoReq.c:10-34 *);
    ("RANAP_RAB_SetupList_EnhRelocInfoRes", 0%nat, CElems (SMax 65535)) (* src/ranap/RANAP_RAB-SetupList-EnhRelocInfoRes.c:10-34 *);
    ("RANAP_RAB_SetupList_EnhancedRelocCompleteReq", 0%nat, CElems (SMax 65535)) (* src/ranap/RANAP_RAB-SetupList-EnhancedRelocCompleteReq.c:10-34 *);
    ("RANAP_RAB_SetupList_EnhancedRelocCompleteRes", 0%nat, CElems (SMax 65535)) (* src/ranap/RANAP_RAB-SetupList-EnhancedRelocCompleteRes.c:10-34 *);
    ("RANAP_RAB_SetupList_RelocReq", 0%nat, CElems (SMax 65535)) (* src/ranap/RANAP_RAB-SetupList-RelocReq.c:10-34 *);
    ("RANAP_RAB_SetupList_RelocReqAck", 0%nat, CElems (SMax 65535)) (* src/ranap/RANAP_RAB-SetupList-RelocReqAck.c:10-34 *);
    ("RANAP_RAB_SetupOrModifiedList", 0%nat, CElems (SMax 65535)) (* src/ranap/RANAP_RAB-SetupOrModifiedList.c:10-34 *);
    ("RANAP_RABs_ContextFailedtoTransferList", 0%nat, CElems (SMax 65535)) (* src/ranap/RANAP_RABs-ContextFailedtoTransferList.c:10-34 *);
    ("RANAP_RABs_failed_to_reportList", 0%nat, CElems (SMax 65535)) (* src/ranap/RANAP_RABs-failed-to-reportList.c:10-34 *);
    ("RANAP_RANAP_EnhancedRelocationInformationRequest", 0%nat, CElems (SMax 65535)) (* src/ranap/RANAP_RANAP-EnhancedRelocationInformationRequest.c:10-34 *);
    ("RANAP_RANAP_EnhancedRelocationInformationResponse", 0%nat, CElems (SMax 65535)) (* src/ranap/RANAP_RANAP-EnhancedRelocationInformationResponse.c:10-34 *);
    ("RANAP_RANAP_RelocationInformation", 0%nat, CElems (SMax 65535)) (* src/ranap/RANAP_RANAP-RelocationInformation.c:10-34 *);
    ("RANAP_RSRVCC_Information", 0%nat, CBits (SEq 128)) (* src/ranap/RANAP_RSRVCC-Information.c:10-39 *);
    ("RANAP_RSRVCC_Information", 1%nat, COcts (SIn 1 32)) (* src/ranap/RANAP_RSRVCC-Information.c:41-65 *);
    ("RANAP_RedirectionIndication", 0%nat, CElems (SMax 65535)) (* src/ranap/RANAP_RedirectionIndication.c:10-34 *);
    ("RANAP_RelocationCancel", 0%nat, CElems (SMax 65535)) (* src/ranap/RANAP_RelocationCancel.c:10-34 *);
    ("RANAP_RelocationCancelAcknowledge", 0%nat, CElems (SMax 65535)) (* src/ranap/RANAP_RelocationCancelAcknowledge.c:10-34 *);
    ("RANAP_RelocationCommand", 0%nat, CElems (SMax 65535)) (* src/ranap/RANAP_RelocationCommand.c:10-34 *);
    ("RANAP_RelocationComplete", 0%nat, CElems (SMax 65535)) (* src/ranap/RANAP_RelocationComplete.c:10-34 *);
    ("RANAP_RelocationDetect", 0%nat, CElems (SMax 65535)) (* src/ranap/RANAP_RelocationDetect.c:10-34 *);
    ("RANAP_RelocationFailure", 0%nat, CElems (SMax 65535)) (* src/ranap/RANAP_RelocationFailure.c:10-34 *);
    ("RANAP_RelocationPreparationFailure", 0%nat, CElems (SMax 65535)) (* src/ranap/RANAP_RelocationPreparationFailure.c:10-34 *);
    ("RANAP_RelocationRequest", 0%nat, CElems (SMax 65535)) (* src/ranap/RANAP_RelocationRequest.c:10-34 *);
    ("RANAP_RelocationRequestAcknowledge", 0%nat, CElems (SMax 65535)) (* src/ranap/RANAP_RelocationRequestAcknowledge.c:10-34 *);
    ("RANAP_RelocationRequired", 0%nat, CElems (SMax 65535)) (* src/ranap/RANAP_RelocationRequired.c:10-34 *);
    ("RANAP_RequestType", 2%nat, CRange (mkLit false 0) (mkLit false 127)) (* src/ranap/RANAP_RequestType.c:10-33 *);
    ("RANAP_Reset", 0%nat, CElems (SMax 65535)) (* src/ranap/RANAP_Reset.c:10-34 *);
    ("RANAP_ResetAcknowledge", 0%nat, CElems (SMax 65535)) (* src/ranap/RANAP_ResetAcknowledge.c:10-34 *);
    ("RANAP_ResetResource", 0%nat, CElems (SMax 65535)) (* src/ranap/RANAP_ResetResource.c:10-34 *);
    ("RANAP_ResetResourceAckList", 0%nat, CElems (SMax 65535)) (* src/ranap/RANAP_ResetResourceAckList.c:11-35 *);
    ("RANAP_ResetResourceAcknowledge", 0%nat, CElems (SMax 65535)) (* src/ranap/RANAP_ResetResourceAcknowledge.c:10-34 *);
    ("RANAP_ResetResourceList", 0%nat, CElems (SMax 65535)) (* src/ranap/RANAP_ResetResourceList.c:11-35 *);
    ("RANAP_SRNS_ContextRequest", 0%nat, CElems (SMax 65535)) (* src/ranap/RANAP_SRNS-ContextRequest.c:10-34 *);
    ("RANAP_SRNS_ContextResponse", 0%nat, CElems (SMax 65535)) (* src/ranap/RANAP_SRNS-ContextResponse.c:10-34 *);
    ("RANAP_SRNS_DataForwardCommand", 0%nat, CElems (SMax 65535)) (* src/ranap/RANAP_SRNS-DataForwardCommand.c:10-34 *);
    ("RANAP_SRVCC_CSKeysRequest", 0%nat, CElems (SMax 65535)) (* src/ranap/RANAP_SRVCC-CSKeysRequest.c:10-34 *);
    ("RANAP_SRVCC_CSKeysResponse", 0%nat, CElems (SMax 65535)) (* src/ranap/RANAP_SRVCC-CSKeysResponse.c:10-34 *);
    ("RANAP_SRVCC_Information", 0%nat, CBits (SEq 128)) (* src/ranap/RANAP_SRVCC-Information.c:10-39 *);
    ("RANAP_SecurityModeCommand", 0%nat, CElems (SMax 65535)) (* src/ranap/RANAP_SecurityModeCommand.c:10-34 *);
    ("RANAP_SecurityModeComplete", 0%nat, CElems (SMax 65535)) (* src/ranap/RANAP_SecurityModeComplete.c:10-34 *);
    ("RANAP_SecurityModeReject", 0%nat, CElems (SMax 65535)) (* src/ranap/RANAP_SecurityModeReject.c:10-34 *);
    ("RANAP_UESpecificInformationIndication", 0%nat, CElems (SMax 65535)) (* src/ranap/RANAP_UESpecificInformationIndication.c:10-34 *);
    ("RANAP_UeRadioCapabilityMatchRequest", 0%nat, CElems (SMax 65535)) (* src/ranap/RANAP_UeRadioCapabilityMatchRequest.c:10-34 *);
    ("RANAP_UeRadioCapabilityMatchResponse", 0%nat, CElems (SMax 65535)) (* src/ranap/RANAP_UeRadioCapabilityMatchResponse.c:10-34 *);
    ("RANAP_UplinkInformationExchangeFailure", 0%nat, CElems (SMax 65535)) (* src/ranap/RANAP_UplinkInformationExchangeFailure.c:10-34 *);
    ("RANAP_UplinkInformationExchangeRequest", 0%nat, CElems (SMax 65535)) (* src/ranap/RANAP_UplinkInformationExchangeRequest.c:10-34 *);
    ("RANAP_UplinkInformationExchangeResponse", 0%nat, CElems (SMax 65535)) (* src/ranap/RANAP_UplinkInformationExchangeResponse.c:10-34 *);
    ("RUA_Connect", 0%nat, CElems (SMax 65535)) (* src/rua/RUA_Connect.c:10-34 *);
    ("RUA_ConnectionlessTransfer", 0%nat, CElems (SMax 65535)) (* src/rua/RUA_ConnectionlessTransfer.c:10-34 *);
    ("RUA_DirectTransfer", 0%nat, CElems (SMax 65535)) (* src/rua/RUA_DirectTransfer.c:10-34 *);
    ("RUA_Disconnect", 0%nat, CElems (SMax 65535)) (* src/rua/RUA_Disconnect.c:10-34 *);
    ("RUA_ErrorIndication", 0%nat, CElems (SMax 65535)) (* src/rua/RUA_ErrorIndication.c:10-34 *);
    ("RUA_IntraDomainNasNodeSelector__later_7", 0%nat, CBits (SEq 15)) (* src/rua/RUA_IntraDomainNasNodeSelector.c:10-39 *);
    ("RUA_PrivateIE_ID", 0%nat, CRange (mkLit false 0) (mkLit false 65535)) (* src/rua/RUA_PrivateIE-ID.c:10-33 *);
    ("RUA_PrivateMessage", 0%nat, CElems (SMax 65535)) (* src/rua/RUA_PrivateMessage.c:10-34 *);
    ("HNBAP_AltitudeAndDirection", 1%nat, CRange (mkLit false 0) (mkLit false 32767)) (* src/hnbap/HNBAP_AltitudeAndDirection.c:116-139 *);
    ("HNBAP_CSGMembershipUpdate", 0%nat, CElems (SMax 65535)) (* src/hnbap/HNBAP_CSGMembershipUpdate.c:10-34 *);
    ("HNBAP_ErrorIndication", 0%nat, CElems (SMax 65535)) (* src/hnbap/HNBAP_ErrorIndication.c:10-34 *);
    ("HNBAP_GeographicalCoordinates", 1%nat, CRange (mkLit false 0) (mkLit false 8388607)) (* src/hnbap/HNBAP_GeographicalCoordinates.c:116-139 *);
    ("HNBAP_GeographicalCoordinates", 2%nat, CRange (mkLit true (-8388608)) (mkLit false 8388607)) (* src/hnbap/HNBAP_GeographicalCoordinates.c:141-164 *);
    ("HNBAP_HNBConfigTransferRequest", 0%nat, CElems (SMax 65535)) (* src/hnbap/HNBAP_HNBConfigTransferRequest.c:10-34 *);
    ("HNBAP_HNBConfigTransferResponse", 0%nat, CElems (SMax 65535)) (* src/hnbap/HNBAP_HNBConfigTransferResponse.c:10-34 *);
    ("HNBAP_HNBDe_Register", 0%nat, CElems (SMax 65535)) (* src/hnbap/HNBAP_HNBDe-Register.c:10-34 *);
    ("HNBAP_HNBRegisterAccept", 0%nat, CElems (SMax 65535)) (* src/hnbap/HNBAP_HNBRegisterAccept.c:10-34 *);
    ("HNBAP_HNBRegisterReject", 0%nat, CElems (SMax 65535)) (* src/hnbap/HNBAP_HNBRegisterReject.c:10-34 *);
    ("HNBAP_HNBRegisterRequest", 0%nat, CElems (SMax 65535)) (* src/hnbap/HNBAP_HNBRegisterRequest.c:10-34 *);
    ("HNBAP_PrivateIE_ID", 0%nat, CRange (mkLit false 0) (mkLit false 65535)) (* src/hnbap/HNBAP_PrivateIE-ID.c:10-33 *);
    ("HNBAP_PrivateMessage", 0%nat, CElems (SMax 65535)) (* src/hnbap/HNBAP_PrivateMessage.c:10-34 *);
    ("HNBAP_RelocationComplete", 0%nat, CElems (SMax 65535)) (* src/hnbap/HNBAP_RelocationComplete.c:10-34 *);
    ("HNBAP_TMSILAI", 0%nat, CBits (SEq 32)) (* src/hnbap/HNBAP_TMSILAI.c:10-39 *);
    ("HNBAP_TNLUpdateFailure", 0%nat, CElems (SMax 65535)) (* src/hnbap/HNBAP_TNLUpdateFailure.c:10-34 *);
    ("HNBAP_TNLUpdateRequest", 0%nat, CElems (SMax 65535)) (* src/hnbap/HNBAP_TNLUpdateRequest.c:10-34 *);
    ("HNBAP_TNLUpdateResponse", 0%nat, CElems (SMax 65535)) (* src/hnbap/HNBAP_TNLUpdateResponse.c:10-34 *);
    ("HNBAP_U_RNTIQueryRequest", 0%nat, CElems (SMax 65535)) (* src/hnbap/HNBAP_U-RNTIQueryRequest.c:10-34 *);
    ("HNBAP_U_RNTIQueryResponse", 0%nat, CElems (SMax 65535)) (* src/hnbap/HNBAP_U-RNTIQueryResponse.c:10-34 *);
    ("HNBAP_UEDe_Register", 0%nat, CElems (SMax 65535)) (* src/hnbap/HNBAP_UEDe-Register.c:10-34 *);
    ("HNBAP_UERegisterAccept", 0%nat, CElems (SMax 65535)) (* src/hnbap/HNBAP_UERegisterAccept.c:10-34 *);
    ("HNBAP_UERegisterReject", 0%nat, CElems (SMax 65535)) (* src/hnbap/HNBAP_UERegisterReject.c:10-34 *);
    ("HNBAP_UERegisterRequest", 0%nat, CElems (SMax 65535)) (* src/hnbap/HNBAP_UERegisterRequest.c:10-34 *);
    ("SABP_Error_Indication", 0%nat, CElems (SMax 65535)) (* src/sabp/SABP_Error-Indication.c:10-34 *);
    ("SABP_Service_Area_Identifier", 0%nat, COcts (SEq 3)) (* src/sabp/SABP_Service-Area-Identifier.c:10-34 *);
    ("SABP_Service_Area_Identifier", 1%nat, COcts (SEq 2)) (* src/sabp/SABP_Service-Area-Identifier.c:36-60 *);
    ("SABP_Service_Area_Identifier", 2%nat, COcts (SEq 2)) (* src/sabp/SABP_Service-Area-Identifier.c:62-86 *);
    ("SABP_Failure", 0%nat, CElems (SMax 65535)) (* src/sabp/SABP_Failure.c:10-34 *);
    ("SABP_Kill_Complete", 0%nat, CElems (SMax 65535)) (* src/sabp/SABP_Kill-Complete.c:10-34 *);
    ("SABP_Kill_Failure", 0%nat, CElems (SMax 65535)) (* src/sabp/SABP_Kill-Failure.c:10-34 *);
    ("SABP_Kill", 0%nat, CElems (SMax 65535)) (* src/sabp/SABP_Kill.c:10-34 *);
    ("SABP_Load_Query_Complete", 0%nat, CElems (SMax 65535)) (* src/sabp/SABP_Load-Query-Complete.c:10-34 *);
    ("SABP_Load_Query_Failure", 0%nat, CElems (SMax 65535)) (* src/sabp/SABP_Load-Query-Failure.c:10-34 *);
    ("SABP_Load_Query", 0%nat, CElems (SMax 65535)) (* src/sabp/SABP_Load-Query.c:10-34 *);
    ("SABP_Message_Status_Query_Complete", 0%nat, CElems (SMax 65535)) (* src/sabp/SABP_Message-Status-Query-Complete.c:10-34 *);
    ("SABP_Message_Status_Query_Failure", 0%nat, CElems (SMax 65535)) (* src/sabp/SABP_Message-Status-Query-Failure.c:10-34 *);
    ("SABP_Message_Status_Query", 0%nat, CElems (SMax 65535)) (* src/sabp/SABP_Message-Status-Query.c:10-34 *);
    ("SABP_Number_of_Broadcasts_Completed_List_Item", 1%nat, CRange (mkLit false 0) (mkLit false 65535)) (* src/sabp/SABP_Number-of-Broadcasts-Completed-List-Item.c:10-33 *);
    ("SABP_Reset_Complete", 0%nat, CElems (SMax 65535)) (* src/sabp/SABP_Reset-Complete.c:10-34 *);
    ("SABP_Reset_Failure", 0%nat, CElems (SMax 65535)) (* src/sabp/SABP_Reset-Failure.c:10-34 *);
    ("SABP_Reset", 0%nat, CElems (SMax 65535)) (* src/sabp/SABP_Reset.c:10-34 *);
    ("SABP_Restart", 0%nat, CElems (SMax 65535)) (* src/sabp/SABP_Restart.c:10-34 *);
    ("SABP_Write_Replace_Complete", 0%nat, CElems (SMax 65535)) (* src/sabp/SABP_Write-Replace-Complete.c:10-34 *);
    ("SABP_Write_Replace_Failure", 0%nat, CElems (SMax 65535)) (* src/sabp/SABP_Write-Replace-Failure.c:10-34 *);
    ("SABP_Write_Replace", 0%nat, CElems (SMax 65535)) (* src/sabp/SABP_Write-Replace.c:10-34 *) ].

(* descriptor, number of the member, the descriptor of the member, whose function is
   called: the members of the asn_MBR_* tables that have no function of their own *)
Definition member_types : list (string * list (nat * string)) :=
  [ ("RANAP_IE", [(0%nat, "RANAP_ProtocolIE_ID"); (1%nat, "RANAP_Criticality"); (2%nat, "ANY")]) (* src/ranap/RANAP_IE.c *);
    ("RANAP_IE_Extensions", [(0%nat, "RANAP_IE")]) (* src/ranap/RANAP_IE-Extensions.c *);
    ("RANAP_AllocationOrRetentionPriority", [(0%nat, "RANAP_PriorityLevel"); (1%nat, "RANAP_Pre_emptionCapability"); (2%nat, "RANAP_Pre_emptionVulnerability"); (3%nat, "RANAP_QueuingAllowed"); (4%nat, "RANAP_IE_Extensions")]) (* src/ranap/RANAP_AllocationOrRetentionPriority.c *);
    ("RANAP_Alt_RAB_Parameter_ExtendedGuaranteedBitrateList", [(0%nat, "RANAP_ExtendedGuaranteedBitrate")]) (* src/ranap/RANAP_Alt-RAB-Parameter-ExtendedGuaranteedBitrateList.c *);
    ("RANAP_Alt_RAB_Parameter_ExtendedGuaranteedBitrates", [(0%nat, "RANAP_Alt_RAB_Parameter_ExtendedGuaranteedBitrateList")]) (* src/ranap/RANAP_Alt-RAB-Parameter-ExtendedGuaranteedBitrates.c *);
    ("RANAP_Alt_RAB_Parameter_ExtendedGuaranteedBitrateInf", [(0%nat, "RANAP_Alt_RAB_Parameter_GuaranteedBitrateType"); (1%nat, "RANAP_Alt_RAB_Parameter_ExtendedGuaranteedBitrates")]) (* src/ranap/RANAP_Alt-RAB-Parameter-ExtendedGuaranteedBitrateInf.c *);
    ("RANAP_Alt_RAB_Parameter_ExtendedMaxBitrateList", [(0%nat, "RANAP_ExtendedMaxBitrate")]) (* src/ranap/RANAP_Alt-RAB-Parameter-ExtendedMaxBitrateList.c *);
    ("RANAP_Alt_RAB_Parameter_ExtendedMaxBitrates", [(0%nat, "RANAP_Alt_RAB_Parameter_ExtendedMaxBitrateList")]) (* src/ranap/RANAP_Alt-RAB-Parameter-ExtendedMaxBitrates.c *);
    ("RANAP_Alt_RAB_Parameter_ExtendedMaxBitrateInf", [(0%nat, "RANAP_Alt_RAB_Parameter_MaxBitrateType"); (1%nat, "RANAP_Alt_RAB_Parameter_ExtendedMaxBitrates")]) (* src/ranap/RANAP_Alt-RAB-Parameter-ExtendedMaxBitrateInf.c *);
    ("RANAP_Alt_RAB_Parameter_GuaranteedBitrateList", [(0%nat, "RANAP_GuaranteedBitrate")]) (* src/ranap/RANAP_Alt-RAB-Parameter-GuaranteedBitrateList.c *);
    ("RANAP_Alt_RAB_Parameter_GuaranteedBitrates", [(0%nat, "RANAP_Alt_RAB_Parameter_GuaranteedBitrateList")]) (* src/ranap/RANAP_Alt-RAB-Parameter-GuaranteedBitrates.c *);
    ("RANAP_Alt_RAB_Parameter_GuaranteedBitrateInf", [(0%nat, "RANAP_Alt_RAB_Parameter_GuaranteedBitrateType"); (1%nat, "RANAP_Alt_RAB_Parameter_GuaranteedBitrates")]) (* src/ranap/RANAP_Alt-RAB-Parameter-GuaranteedBitrateInf.c *);
    ("RANAP_Alt_RAB_Parameter_MaxBitrateList", [(0%nat, "RANAP_MaxBitrate")]) (* src/ranap/RANAP_Alt-RAB-Parameter-MaxBitrateList.c *);
    ("RANAP_Alt_RAB_Parameter_MaxBitrates", [(0%nat, "RANAP_Alt_RAB_Parameter_MaxBitrateList")]) (* src/ranap/RANAP_Alt-RAB-Parameter-MaxBitrates.c *);
    ("RANAP_Alt_RAB_Parameter_MaxBitrateInf", [(0%nat, "RANAP_Alt_RAB_Parameter_MaxBitrateType"); (1%nat, "RANAP_Alt_RAB_Parameter_MaxBitrates")]) (* src/ranap/RANAP_Alt-RAB-Parameter-MaxBitrateInf.c *);
    ("RANAP_SupportedRAB_ParameterBitrateList", [(0%nat, "RANAP_SupportedBitrate")]) (* src/ranap/RANAP_SupportedRAB-ParameterBitrateList.c *);
    ("RANAP_Alt_RAB_Parameter_SupportedGuaranteedBitrates", [(0%nat, "RANAP_SupportedRAB_ParameterBitrateList")]) (* src/ranap/RANAP_Alt-RAB-Parameter-SupportedGuaranteedBitrates.c *);
    ("RANAP_Alt_RAB_Parameter_SupportedGuaranteedBitrateInf", [(0%nat, "RANAP_Alt_RAB_Parameter_GuaranteedBitrateType"); (1%nat, "RANAP_Alt_RAB_Parameter_SupportedGuaranteedBitrates"); (2%nat, "RANAP_IE_Extensions")]) (* src/ranap/RANAP_Alt-RAB-Parameter-SupportedGuaranteedBitrateInf.c *);
    ("RANAP_Alt_RAB_Parameter_SupportedMaxBitrates", [(0%nat, "RANAP_SupportedRAB_ParameterBitrateList")]) (* src/ranap/RANAP_Alt-RAB-Parameter-SupportedMaxBitrates.c *);
    ("RANAP_Alt_RAB_Parameter_SupportedMaxBitrateInf", [(0%nat, "RANAP_Alt_RAB_Parameter_MaxBitrateType"); (1%nat, "RANAP_Alt_RAB_Parameter_SupportedMaxBitrates"); (2%nat, "RANAP_IE_Extensions")]) (* src/ranap/RANAP_Alt-RAB-Parameter-SupportedMaxBitrateInf.c *);
    ("RANAP_Alt_RAB_Parameters", [(0%nat, "RANAP_Alt_RAB_Parameter_MaxBitrateInf"); (1%nat, "RANAP_Alt_RAB_Parameter_GuaranteedBitrateInf"); (2%nat, "RANAP_IE_Extensions")]) (* src/ranap/RANAP_Alt-RAB-Parameters.c *);
    ("RANAP_SAI", [(0%nat, "RANAP_PLMNidentity"); (1%nat, "RANAP_LAC"); (2%nat, "RANAP_SAC"); (3%nat, "RANAP_IE_Extensions")]) (* src/ranap/RANAP_SAI.c *);
    ("RANAP_GeographicalCoordinates", [(0%nat, "RANAP_GeographicalCoordinates__latitudeSign_2"); (3%nat, "RANAP_IE_Extensions")]) (* src/ranap/RANAP_GeographicalCoordinates.c *);
    ("RANAP_GA_Point", [(0%nat, "RANAP_GeographicalCoordinates"); (1%nat, "RANAP_IE_Extensions")]) (* src/ranap/RANAP_GA-Point.c *);
    ("RANAP_GA_PointWithUnCertainty", [(0%nat, "RANAP_GeographicalCoordinates"); (1%nat, "RANAP_IE_Extensions")]) (* src/ranap/RANAP_GA-PointWithUnCertainty.c *);
    ("RANAP_GA_Polygon_Value", [(0%nat, "RANAP_GeographicalCoordinates"); (1%nat, "RANAP_IE_Extensions")]) (* src/ranap/RANAP_GA-Polygon-Value.c *);
    ("RANAP_GA_Polygon", [(0%nat, "RANAP_GA_Polygon_Value")]) (* src/ranap/RANAP_GA-Polygon.c *);
    ("RANAP_GA_PointWithUnCertaintyEllipse", [(0%nat, "RANAP_GeographicalCoordinates"); (1%nat, "RANAP_GA_UncertaintyEllipse"); (3%nat, "RANAP_IE_Extensions")]) (* src/ranap/RANAP_GA-PointWithUnCertaintyEllipse.c *);
    ("RANAP_GA_AltitudeAndDirection", [(0%nat, "RANAP_GA_AltitudeAndDirection__directionOfAltitude_2")]) (* src/ranap/RANAP_GA-AltitudeAndDirection.c *);
    ("RANAP_GA_PointWithAltitude", [(0%nat, "RANAP_GeographicalCoordinates"); (1%nat, "RANAP_GA_AltitudeAndDirection"); (2%nat, "RANAP_IE_Extensions")]) (* src/ranap/RANAP_GA-PointWithAltitude.c *);
    ("RANAP_GA_PointWithAltitudeAndUncertaintyEllipsoid", [(0%nat, "RANAP_GeographicalCoordinates"); (1%nat, "RANAP_GA_AltitudeAndDirection"); (2%nat, "RANAP_GA_UncertaintyEllipse"); (5%nat, "RANAP_IE_Extensions")]) (* src/ranap/RANAP_GA-PointWithAltitudeAndUncertaintyEllipsoid.c *);
    ("RANAP_GA_EllipsoidArc", [(0%nat, "RANAP_GeographicalCoordinates"); (6%nat, "RANAP_IE_Extensions")]) (* src/ranap/RANAP_GA-EllipsoidArc.c *);
    ("RANAP_GeographicalArea", [(0%nat, "RANAP_GA_Point"); (1%nat, "RANAP_GA_PointWithUnCertainty"); (2%nat, "RANAP_GA_Polygon"); (3%nat, "RANAP_GA_PointWithUnCertaintyEllipse"); (4%nat, "RANAP_GA_PointWithAltitude"); (5%nat, "RANAP_GA_PointWithAltitudeAndUncertaintyEllipsoid"); (6%nat, "RANAP_GA_EllipsoidArc")]) (* src/ranap/RANAP_GeographicalArea.c *);
    ("RANAP_AreaIdentity", [(0%nat, "RANAP_SAI"); (1%nat, "RANAP_GeographicalArea")]) (* src/ranap/RANAP_AreaIdentity.c *);
    ("RANAP_Ass_RAB_Parameter_ExtendedGuaranteedBitrateList", [(0%nat, "RANAP_ExtendedGuaranteedBitrate")]) (* src/ranap/RANAP_Ass-RAB-Parameter-ExtendedGuaranteedBitrateList.c *);
    ("RANAP_Ass_RAB_Parameter_ExtendedMaxBitrateList", [(0%nat, "RANAP_ExtendedMaxBitrate")]) (* src/ranap/RANAP_Ass-RAB-Parameter-ExtendedMaxBitrateList.c *);
    ("RANAP_Ass_RAB_Parameter_GuaranteedBitrateList", [(0%nat, "RANAP_GuaranteedBitrate")]) (* src/ranap/RANAP_Ass-RAB-Parameter-GuaranteedBitrateList.c *);
    ("RANAP_Ass_RAB_Parameter_MaxBitrateList", [(0%nat, "RANAP_MaxBitrate")]) (* src/ranap/RANAP_Ass-RAB-Parameter-MaxBitrateList.c *);
    ("RANAP_Ass_RAB_Parameters", [(0%nat, "RANAP_Ass_RAB_Parameter_MaxBitrateList"); (1%nat, "RANAP_Ass_RAB_Parameter_GuaranteedBitrateList"); (2%nat, "RANAP_IE_Extensions")]) (* src/ranap/RANAP_Ass-RAB-Parameters.c *);
    ("RANAP_AuthorisedSNAs", [(0%nat, "RANAP_SNAC")]) (* src/ranap/RANAP_AuthorisedSNAs.c *);
    ("RANAP_AuthorisedPLMNs_Value", [(0%nat, "RANAP_PLMNidentity"); (1%nat, "RANAP_AuthorisedSNAs"); (2%nat, "RANAP_IE_Extensions")]) (* src/ranap/RANAP_AuthorisedPLMNs-Value.c *);
    ("RANAP_AuthorisedPLMNs", [(0%nat, "RANAP_AuthorisedPLMNs_Value")]) (* src/ranap/RANAP_AuthorisedPLMNs.c *);
    ("RANAP_CGI", [(0%nat, "RANAP_PLMNidentity"); (1%nat, "RANAP_LAC"); (2%nat, "RANAP_CI"); (3%nat, "RANAP_IE_Extensions")]) (* src/ranap/RANAP_CGI.c *);
    ("RANAP_CN_DeactivateTrace__cN_DeactivateTrace_ies_2", [(0%nat, "RANAP_IE")]) (* src/ranap/RANAP_CN-DeactivateTrace.c *);
    ("RANAP_CN_InvokeTrace__cN_InvokeTrace_ies_2", [(0%nat, "RANAP_IE")]) (* src/ranap/RANAP_CN-InvokeTrace.c *);
    ("RANAP_TMGI", [(0%nat, "RANAP_PLMNidentity"); (2%nat, "RANAP_IE_Extensions")]) (* src/ranap/RANAP_TMGI.c *);
    ("RANAP_ProtocolExtensionField", [(0%nat, "RANAP_ProtocolIE_ID"); (1%nat, "RANAP_Criticality"); (2%nat, "ANY")]) (* src/ranap/RANAP_ProtocolExtensionField.c *);
    ("RANAP_ProtocolExtensionContainer", [(0%nat, "RANAP_ProtocolExtensionField")]) (* src/ranap/RANAP_ProtocolExtensionContainer.c *);
    ("RANAP_JoinedMBMSBearerService_IEs_Value", [(0%nat, "RANAP_TMGI"); (1%nat, "RANAP_MBMS_PTP_RAB_ID"); (2%nat, "RANAP_ProtocolExtensionContainer")]) (* src/ranap/RANAP_JoinedMBMSBearerService-IEs-Value.c *);
    ("RANAP_JoinedMBMSBearerService_IEs", [(0%nat, "RANAP_JoinedMBMSBearerService_IEs_Value")]) (* src/ranap/RANAP_JoinedMBMSBearerService-IEs.c *);
    ("RANAP_CNMBMSLinkingInformation", [(0%nat, "RANAP_JoinedMBMSBearerService_IEs"); (1%nat, "RANAP_ProtocolExtensionContainer")]) (* src/ranap/RANAP_CNMBMSLinkingInformation.c *);
    ("RANAP_CSG_Id_List", [(0%nat, "RANAP_CSG_Id")]) (* src/ranap/RANAP_CSG-Id-List.c *);
    ("RANAP_Cause", [(0%nat, "RANAP_CauseRadioNetwork"); (1%nat, "RANAP_CauseTransmissionNetwork"); (2%nat, "RANAP_CauseNAS"); (3%nat, "RANAP_CauseProtocol"); (4%nat, "RANAP_CauseMisc"); (5%nat, "RANAP_CauseNon_Standard"); (6%nat, "RANAP_CauseRadioNetworkExtension")]) (* src/ranap/RANAP_Cause.c *);
    ("RANAP_CellIdList", [(0%nat, "RANAP_Cell_Id")]) (* src/ranap/RANAP_CellIdList.c *);
    ("RANAP_CellBased", [(0%nat, "RANAP_CellIdList"); (1%nat, "RANAP_IE_Extensions")]) (* src/ranap/RANAP_CellBased.c *);
    ("RANAP_CellLoadInformation", [(0%nat, "RANAP_Cell_Capacity_Class_Value"); (1%nat, "RANAP_LoadValue"); (2%nat, "RANAP_RTLoadValue"); (3%nat, "RANAP_NRTLoadInformationValue"); (4%nat, "RANAP_IE_Extensions")]) (* src/ranap/RANAP_CellLoadInformation.c *);
    ("RANAP_SourceUTRANCellID", [(0%nat, "RANAP_PLMNidentity"); (1%nat, "RANAP_TargetCellId"); (2%nat, "RANAP_IE_Extensions")]) (* src/ranap/RANAP_SourceUTRANCellID.c *);
    ("RANAP_SourceCellID", [(0%nat, "RANAP_SourceUTRANCellID"); (1%nat, "RANAP_CGI")]) (* src/ranap/RANAP_SourceCellID.c *);
    ("RANAP_CellLoadInformationGroup", [(0%nat, "RANAP_SourceCellID"); (1%nat, "RANAP_CellLoadInformation"); (2%nat, "RANAP_CellLoadInformation"); (3%nat, "RANAP_IE_Extensions")]) (* src/ranap/RANAP_CellLoadInformationGroup.c *);
    ("RANAP_CommonID__commonID_ies_2", [(0%nat, "RANAP_IE")]) (* src/ranap/RANAP_CommonID.c *);
    ("RANAP_CriticalityDiagnostics_IE_List_Value", [(0%nat, "RANAP_Criticality"); (1%nat, "RANAP_ProtocolIE_ID"); (2%nat, "RANAP_RepetitionNumber0"); (3%nat, "RANAP_IE_Extensions")]) (* src/ranap/RANAP_CriticalityDiagnostics-IE-List-Value.c *);
    ("RANAP_CriticalityDiagnostics_IE_List", [(0%nat, "RANAP_CriticalityDiagnostics_IE_List_Value")]) (* src/ranap/RANAP_CriticalityDiagnostics-IE-List.c *);
    ("RANAP_CriticalityDiagnostics", [(0%nat, "RANAP_ProcedureCode"); (1%nat, "RANAP_TriggeringMessage"); (2%nat, "RANAP_Criticality"); (3%nat, "RANAP_CriticalityDiagnostics_IE_List"); (4%nat, "RANAP_IE_Extensions")]) (* src/ranap/RANAP_CriticalityDiagnostics.c *);
    ("RANAP_DataVolumeList_Value", [(0%nat, "RANAP_UnsuccessfullyTransmittedDataVolume"); (1%nat, "RANAP_DataVolumeReference"); (2%nat, "RANAP_ProtocolExtensionContainer")]) (* src/ranap/RANAP_DataVolumeList-Value.c *);
    ("RANAP_DataVolumeList", [(0%nat, "RANAP_DataVolumeList_Value")]) (* src/ranap/RANAP_DataVolumeList.c *);
    ("RANAP_DataVolumeReport__dataVolumeReport_ies_2", [(0%nat, "RANAP_IE")]) (* src/ranap/RANAP_DataVolumeReport.c *);
    ("RANAP_DataVolumeReportList__dataVolumeReportListe_ies_2", [(0%nat, "RANAP_IE")]) (* src/ranap/RANAP_DataVolumeReportList.c *);
    ("RANAP_DataVolumeReportRequest__dataVolumeReportRequest_ies_2", [(0%nat, "RANAP_IE")]) (* src/ranap/RANAP_DataVolumeReportRequest.c *);
    ("RANAP_NewRAListofIdleModeUEs", [(0%nat, "RANAP_RAC")]) (* src/ranap/RANAP_NewRAListofIdleModeUEs.c *);
    ("RANAP_RAListwithNoIdleModeUEsAnyMore", [(0%nat, "RANAP_RAC")]) (* src/ranap/RANAP_RAListwithNoIdleModeUEsAnyMore.c *);
    ("RANAP_DeltaRAListofIdleModeUEs", [(0%nat, "RANAP_NewRAListofIdleModeUEs"); (1%nat, "RANAP_RAListwithNoIdleModeUEsAnyMore"); (2%nat, "RANAP_IE_Extensions")]) (* src/ranap/RANAP_DeltaRAListofIdleModeUEs.c *);
    ("RANAP_DirectInformationTransfer__directInformationTransfer_ies_2", [(0%nat, "RANAP_IE")]) (* src/ranap/RANAP_DirectInformationTransfer.c *);
    ("RANAP_ProtocolIE_Container", [(0%nat, "RANAP_IE")]) (* src/ranap/RANAP_ProtocolIE-Container.c *);
    ("RANAP_DirectTransfer_IE_ContainerList", [(0%nat, "RANAP_ProtocolIE_Container")]) (* src/ranap/RANAP_DirectTransfer-IE-ContainerList.c *);
    ("RANAP_DirectTransfer__directTransfer_ies_2", [(0%nat, "RANAP_IE")]) (* src/ranap/RANAP_DirectTransfer.c *);
    ("RANAP_DirectTransferInformationItem_RANAP_RelocInf", [(0%nat, "RANAP_NAS_PDU"); (1%nat, "RANAP_SAPI"); (2%nat, "RANAP_CN_DomainIndicator"); (3%nat, "RANAP_ProtocolExtensionContainer")]) (* src/ranap/RANAP_DirectTransferInformationItem-RANAP-RelocInf.c *);
    ("RANAP_EUTRANFrequencies_Value", [(1%nat, "RANAP_MeasBand"); (2%nat, "RANAP_IE_Extensions")]) (* src/ranap/RANAP_EUTRANFrequencies-Value.c *);
    ("RANAP_EUTRANFrequencies", [(0%nat, "RANAP_EUTRANFrequencies_Value")]) (* src/ranap/RANAP_EUTRANFrequencies.c *);
    ("RANAP_PermittedEncryptionAlgorithms", [(0%nat, "RANAP_EncryptionAlgorithm")]) (* src/ranap/RANAP_PermittedEncryptionAlgorithms.c *);
    ("RANAP_EncryptionInformation", [(0%nat, "RANAP_PermittedEncryptionAlgorithms"); (1%nat, "RANAP_EncryptionKey"); (2%nat, "RANAP_IE_Extensions")]) (* src/ranap/RANAP_EncryptionInformation.c *);
    ("RANAP_EnhancedRelocationCompleteConfirm__enhancedRelocationCompleteConfirm_ies_2", [(0%nat, "RANAP_IE")]) (* src/ranap/RANAP_EnhancedRelocationCompleteConfirm.c *);
    ("RANAP_EnhancedRelocationCompleteFailure__enhancedRelocationCompleteFailure_ies_2", [(0%nat, "RANAP_IE")]) (* src/ranap/RANAP_EnhancedRelocationCompleteFailure.c *);
    ("RANAP_EnhancedRelocationCompleteRequest__enhancedRelocationCompleteRequest_ies_2", [(0%nat, "RANAP_IE")]) (* src/ranap/RANAP_EnhancedRelocationCompleteRequest.c *);
    ("RANAP_EnhancedRelocationCompleteResponse__enhancedRelocationCompleteResponse_ies_2", [(0%nat, "RANAP_IE")]) (* src/ranap/RANAP_EnhancedRelocationCompleteResponse.c *);
    ("RANAP_IMEIList", [(0%nat, "RANAP_IMEI")]) (* src/ranap/RANAP_IMEIList.c *);
    ("RANAP_IMEISVList", [(0%nat, "RANAP_IMEISV")]) (* src/ranap/RANAP_IMEISVList.c *);
    ("RANAP_IMEIGroup", [(0%nat, "RANAP_IMEI"); (2%nat, "RANAP_IE_Extensions")]) (* src/ranap/RANAP_IMEIGroup.c *);
    ("RANAP_IMEISVGroup", [(0%nat, "RANAP_IMEISV"); (2%nat, "RANAP_IE_Extensions")]) (* src/ranap/RANAP_IMEISVGroup.c *);
    ("RANAP_EquipmentsToBeTraced", [(0%nat, "RANAP_IMEIList"); (1%nat, "RANAP_IMEISVList"); (2%nat, "RANAP_IMEIGroup"); (3%nat, "RANAP_IMEISVGroup")]) (* src/ranap/RANAP_EquipmentsToBeTraced.c *);
    ("RANAP_ErrorIndication__errorIndication_ies_2", [(0%nat, "RANAP_IE")]) (* src/ranap/RANAP_ErrorIndication.c *);
    ("RANAP_Event1F_Parameters", [(0%nat, "RANAP_MeasurementQuantity")]) (* src/ranap/RANAP_Event1F-Parameters.c *);
    ("RANAP_ForwardSRNS_Context__forwardSRNS_Context_ies_2", [(0%nat, "RANAP_IE")]) (* src/ranap/RANAP_ForwardSRNS-Context.c *);
    ("RANAP_GANSS_PositioningDataSet", [(0%nat, "RANAP_GANSS_PositioningMethodAndUsage")]) (* src/ranap/RANAP_GANSS-PositioningDataSet.c *);
    ("RANAP_LAI", [(0%nat, "RANAP_PLMNidentity"); (1%nat, "RANAP_LAC"); (2%nat, "RANAP_IE_Extensions")]) (* src/ranap/RANAP_LAI.c *);
    ("RANAP_GERAN_Cell_ID", [(0%nat, "RANAP_LAI"); (1%nat, "RANAP_RAC"); (2%nat, "RANAP_CI"); (3%nat, "RANAP_IE_Extensions")]) (* src/ranap/RANAP_GERAN-Cell-ID.c *);
    ("RANAP_GERAN_Iumode_RAB_Failed_RABAssgntResponse_Item", [(0%nat, "RANAP_RAB_ID"); (1%nat, "RANAP_Cause"); (2%nat, "RANAP_GERAN_Classmark"); (3%nat, "RANAP_ProtocolExtensionContainer")]) (* src/ranap/RANAP_GERAN-Iumode-RAB-Failed-RABAssgntResponse-Item.c *);
    ("RANAP_GERAN_Iumode_RAB_Failed_RABAssgntResponse_List__geraN_Iumode_RAB_Failed_RABAssgntResponse_List_ies_2", [(0%nat, "RANAP_IE")]) (* src/ranap/RANAP_GERAN-Iumode-RAB-Failed-RABAssgntResponse-List.c *);
    ("RANAP_GlobalCN_ID", [(0%nat, "RANAP_PLMNidentity"); (1%nat, "RANAP_CN_ID")]) (* src/ranap/RANAP_GlobalCN-ID.c *);
    ("RANAP_GlobalRNC_ID", [(0%nat, "RANAP_PLMNidentity"); (1%nat, "RANAP_RNC_ID")]) (* src/ranap/RANAP_GlobalRNC-ID.c *);
    ("RANAP_HorizontalVelocity", [(0%nat, "RANAP_HorizontalSpeedAndBearing"); (1%nat, "RANAP_IE_Extensions")]) (* src/ranap/RANAP_HorizontalVelocity.c *);
    ("RANAP_HorizontalVelocityWithUncertainty", [(0%nat, "RANAP_HorizontalSpeedAndBearing"); (2%nat, "RANAP_IE_Extensions")]) (* src/ranap/RANAP_HorizontalVelocityWithUncertainty.c *);
    ("RANAP_VerticalVelocity", [(1%nat, "RANAP_VerticalSpeedDirection")]) (* src/ranap/RANAP_VerticalVelocity.c *);
    ("RANAP_HorizontalWithVerticalVelocity", [(0%nat, "RANAP_HorizontalSpeedAndBearing"); (1%nat, "RANAP_VerticalVelocity"); (2%nat, "RANAP_IE_Extensions")]) (* src/ranap/RANAP_HorizontalWithVerticalVelocity.c *);
    ("RANAP_HorizontalWithVerticalVelocityAndUncertainty", [(0%nat, "RANAP_HorizontalSpeedAndBearing"); (1%nat, "RANAP_VerticalVelocity"); (4%nat, "RANAP_IE_Extensions")]) (* src/ranap/RANAP_HorizontalWithVerticalVelocityAndUncertainty.c *);
    ("RANAP_IRATmeasurementParameters", [(1%nat, "RANAP_EUTRANFrequencies"); (2%nat, "RANAP_IE_Extensions")]) (* src/ranap/RANAP_IRATmeasurementParameters.c *);
    ("RANAP_IRAT_Measurement_Configuration", [(2%nat, "RANAP_IRATmeasurementParameters"); (3%nat, "RANAP_IE_Extensions")]) (* src/ranap/RANAP_IRAT-Measurement-Configuration.c *);
    ("RANAP_MDT_Report_Parameters", [(0%nat, "RANAP_ReportInterval"); (1%nat, "RANAP_ReportAmount")]) (* src/ranap/RANAP_MDT-Report-Parameters.c *);
    ("RANAP_M1Report", [(0%nat, "RANAP_MDT_Report_Parameters"); (1%nat, "RANAP_Event1F_Parameters")]) (* src/ranap/RANAP_M1Report.c *);
    ("RANAP_M2Report", [(0%nat, "RANAP_MDT_Report_Parameters"); (1%nat, "RANAP_Event1I_Parameters")]) (* src/ranap/RANAP_M2Report.c *);
    ("RANAP_ImmediateMDT", [(0%nat, "RANAP_MeasurementsToActivate"); (1%nat, "RANAP_M1Report"); (2%nat, "RANAP_M2Report"); (3%nat, "RANAP_IE_Extensions")]) (* src/ranap/RANAP_ImmediateMDT.c *);
    ("RANAP_MBMSIPMulticastAddressandAPNRequest", [(0%nat, "RANAP_TMGI")]) (* src/ranap/RANAP_MBMSIPMulticastAddressandAPNRequest.c *);
    ("RANAP_PermanentNAS_UE_ID", [(0%nat, "RANAP_IMSI")]) (* src/ranap/RANAP_PermanentNAS-UE-ID.c *);
    ("RANAP_InformationRequestType", [(0%nat, "RANAP_MBMSIPMulticastAddressandAPNRequest"); (1%nat, "RANAP_PermanentNAS_UE_ID")]) (* src/ranap/RANAP_InformationRequestType.c *);
    ("RANAP_MBMSIPMulticastAddressandAPNlist", [(0%nat, "RANAP_TMGI"); (1%nat, "RANAP_IPMulticastAddress"); (2%nat, "RANAP_APN"); (3%nat, "RANAP_IE_Extensions")]) (* src/ranap/RANAP_MBMSIPMulticastAddressandAPNlist.c *);
    ("RANAP_RequestedMBMSIPMulticastAddressandAPNRequest", [(0%nat, "RANAP_MBMSIPMulticastAddressandAPNlist")]) (* src/ranap/RANAP_RequestedMBMSIPMulticastAddressandAPNRequest.c *);
    ("RANAP_RequestedMulticastServiceList", [(0%nat, "RANAP_TMGI")]) (* src/ranap/RANAP_RequestedMulticastServiceList.c *);
    ("RANAP_InformationRequested", [(0%nat, "RANAP_RequestedMBMSIPMulticastAddressandAPNRequest"); (1%nat, "RANAP_RequestedMulticastServiceList")]) (* src/ranap/RANAP_InformationRequested.c *);
    ("RANAP_InformationTransferConfirmation__informationTransferConfirmation_ies_2", [(0%nat, "RANAP_IE")]) (* src/ranap/RANAP_InformationTransferConfirmation.c *);
    ("RANAP_InformationTransferFailure__informationTransferFailure_ies_2", [(0%nat, "RANAP_IE")]) (* src/ranap/RANAP_InformationTransferFailure.c *);
    ("RANAP_InformationTransferIndication__informationTransferIndication_ies_2", [(0%nat, "RANAP_IE")]) (* src/ranap/RANAP_InformationTransferIndication.c *);
    ("RANAP_RNCTraceInformation", [(0%nat, "RANAP_TraceReference"); (1%nat, "RANAP_RNCTraceInformation__traceActivationIndicato_3"); (2%nat, "RANAP_EquipmentsToBeTraced"); (3%nat, "RANAP_IE_Extensions")]) (* src/ranap/RANAP_RNCTraceInformation.c *);
    ("RANAP_InformationTransferType", [(0%nat, "RANAP_RNCTraceInformation")]) (* src/ranap/RANAP_InformationTransferType.c *);
    ("RANAP_InitialUE_Message__initialUE_Message_ies_2", [(0%nat, "RANAP_IE")]) (* src/ranap/RANAP_InitialUE-Message.c *);
    ("RANAP_InitiatingMessage", [(0%nat, "RANAP_ProcedureCode"); (1%nat, "RANAP_Criticality"); (2%nat, "ANY")]) (* src/ranap/RANAP_InitiatingMessage.c *);
    ("RANAP_PermittedIntegrityProtectionAlgorithms", [(0%nat, "RANAP_IntegrityProtectionAlgorithm")]) (* src/ranap/RANAP_PermittedIntegrityProtectionAlgorithms.c *);
    ("RANAP_IntegrityProtectionInformation", [(0%nat, "RANAP_PermittedIntegrityProtectionAlgorithms"); (1%nat, "RANAP_IntegrityProtectionKey"); (2%nat, "RANAP_IE_Extensions")]) (* src/ranap/RANAP_IntegrityProtectionInformation.c *);
    ("RANAP_InterSystemInformation_TransparentContainer", [(0%nat, "RANAP_CellLoadInformation"); (1%nat, "RANAP_CellLoadInformation"); (2%nat, "RANAP_IE_Extensions")]) (* src/ranap/RANAP_InterSystemInformation-TransparentContainer.c *);
    ("RANAP_TargetRNC_ID", [(0%nat, "RANAP_LAI"); (1%nat, "RANAP_RAC"); (2%nat, "RANAP_RNC_ID"); (3%nat, "RANAP_IE_Extensions")]) (* src/ranap/RANAP_TargetRNC-ID.c *);
    ("RANAP_TAI", [(0%nat, "RANAP_PLMNidentity"); (1%nat, "RANAP_TAC"); (2%nat, "RANAP_IE_Extensions")]) (* src/ranap/RANAP_TAI.c *);
    ("RANAP_TargetENB_ID", [(0%nat, "RANAP_PLMNidentity"); (1%nat, "RANAP_ENB_ID"); (2%nat, "RANAP_IE_Extensions"); (3%nat, "RANAP_TAI")]) (* src/ranap/RANAP_TargetENB-ID.c *);
    ("RANAP_RIMRoutingAddress", [(0%nat, "RANAP_TargetRNC_ID"); (1%nat, "RANAP_GERAN_Cell_ID"); (2%nat, "RANAP_TargetENB_ID")]) (* src/ranap/RANAP_RIMRoutingAddress.c *);
    ("RANAP_RIM_Transfer", [(0%nat, "RANAP_RIMInformation"); (1%nat, "RANAP_RIMRoutingAddress"); (2%nat, "RANAP_IE_Extensions")]) (* src/ranap/RANAP_RIM-Transfer.c *);
    ("RANAP_InterSystemInformationTransferType", [(0%nat, "RANAP_RIM_Transfer")]) (* src/ranap/RANAP_InterSystemInformationTransferType.c *);
    ("RANAP_InterfacesToTraceItem", [(0%nat, "RANAP_InterfacesToTraceItem__interface_2"); (1%nat, "RANAP_IE_Extensions")]) (* src/ranap/RANAP_InterfacesToTraceItem.c *);
    ("RANAP_Iu_ReleaseCommand__iu_ReleaseCommand_ies_2", [(0%nat, "RANAP_IE")]) (* src/ranap/RANAP_Iu-ReleaseCommand.c *);
    ("RANAP_Iu_ReleaseComplete__iu_ReleaseComplete_ies_2", [(0%nat, "RANAP_IE")]) (* src/ranap/RANAP_Iu-ReleaseComplete.c *);
    ("RANAP_Iu_ReleaseRequest__iu_ReleaseRequest_ies_2", [(0%nat, "RANAP_IE")]) (* src/ranap/RANAP_Iu-ReleaseRequest.c *);
    ("RANAP_IuSigConId_IE_ContainerList", [(0%nat, "RANAP_ProtocolIE_Container")]) (* src/ranap/RANAP_IuSigConId-IE-ContainerList.c *);
    ("RANAP_IuTransportAssociation", [(0%nat, "RANAP_GTP_TEI"); (1%nat, "RANAP_BindingID")]) (* src/ranap/RANAP_IuTransportAssociation.c *);
    ("RANAP_ListOF_SNAs", [(0%nat, "RANAP_SNAC")]) (* src/ranap/RANAP_ListOF-SNAs.c *);
    ("RANAP_LA_LIST_Value", [(0%nat, "RANAP_LAC"); (1%nat, "RANAP_ListOF_SNAs"); (2%nat, "RANAP_IE_Extensions")]) (* src/ranap/RANAP_LA-LIST-Value.c *);
    ("RANAP_LA_LIST", [(0%nat, "RANAP_LA_LIST_Value")]) (* src/ranap/RANAP_LA-LIST.c *);
    ("RANAP_LAI_List", [(0%nat, "RANAP_LAI")]) (* src/ranap/RANAP_LAI-List.c *);
    ("RANAP_LABased", [(0%nat, "RANAP_LAI_List"); (1%nat, "RANAP_IE_Extensions")]) (* src/ranap/RANAP_LABased.c *);
    ("RANAP_LAListofIdleModeUEs", [(0%nat, "RANAP_LAI")]) (* src/ranap/RANAP_LAListofIdleModeUEs.c *);
    ("RANAP_LastKnownServiceArea", [(0%nat, "RANAP_SAI"); (2%nat, "RANAP_IE_Extensions")]) (* src/ranap/RANAP_LastKnownServiceArea.c *);
    ("RANAP_UTRAN_CellID", [(0%nat, "RANAP_PLMNidentity"); (1%nat, "RANAP_TargetCellId"); (2%nat, "RANAP_IE_Extensions")]) (* src/ranap/RANAP_UTRAN-CellID.c *);
    ("RANAP_LastVisitedUTRANCell_Item", [(0%nat, "RANAP_UTRAN_CellID"); (1%nat, "RANAP_CellType"); (2%nat, "RANAP_Time_UE_StayedInCell"); (3%nat, "RANAP_IE_Extensions")]) (* src/ranap/RANAP_LastVisitedUTRANCell-Item.c *);
    ("RANAP_LeftMBMSBearerService_IEs_Value", [(0%nat, "RANAP_TMGI"); (1%nat, "RANAP_ProtocolExtensionContainer")]) (* src/ranap/RANAP_LeftMBMSBearerService-IEs-Value.c *);
    ("RANAP_LeftMBMSBearerService_IEs", [(0%nat, "RANAP_LeftMBMSBearerService_IEs_Value")]) (* src/ranap/RANAP_LeftMBMSBearerService-IEs.c *);
    ("RANAP_ListOfInterfacesToTrace", [(0%nat, "RANAP_InterfacesToTraceItem")]) (* src/ranap/RANAP_ListOfInterfacesToTrace.c *);
    ("RANAP_LocationRelatedDataFailure__locationRelatedDataFailure_ies_2", [(0%nat, "RANAP_IE")]) (* src/ranap/RANAP_LocationRelatedDataFailure.c *);
    ("RANAP_LocationRelatedDataRequest__locationRelatedDataRequest_ies_2", [(0%nat, "RANAP_IE")]) (* src/ranap/RANAP_LocationRelatedDataRequest.c *);
    ("RANAP_LocationRelatedDataRequestType", [(0%nat, "RANAP_RequestedLocationRelatedDataType"); (1%nat, "RANAP_RequestedGPSAssistanceData")]) (* src/ranap/RANAP_LocationRelatedDataRequestType.c *);
    ("RANAP_LocationRelatedDataResponse__locationRelatedDataResponse_ies_2", [(0%nat, "RANAP_IE")]) (* src/ranap/RANAP_LocationRelatedDataResponse.c *);
    ("RANAP_LocationReport__locationReport_ies_2", [(0%nat, "RANAP_IE")]) (* src/ranap/RANAP_LocationReport.c *);
    ("RANAP_LocationReportingControl__locationReportingControl_ies_2", [(0%nat, "RANAP_IE")]) (* src/ranap/RANAP_LocationReportingControl.c *);
    ("RANAP_PeriodicLocationInfo", [(2%nat, "RANAP_IE_Extensions")]) (* src/ranap/RANAP_PeriodicLocationInfo.c *);
    ("RANAP_LocationReportingTransferInformation", [(0%nat, "RANAP_ReportChangeOfSAI"); (1%nat, "RANAP_PeriodicReportingIndicator"); (2%nat, "RANAP_DirectReportingIndicator"); (3%nat, "RANAP_VerticalAccuracyCode"); (4%nat, "RANAP_PositioningPriority"); (5%nat, "RANAP_PositioningPriority"); (6%nat, "RANAP_ClientType"); (7%nat, "RANAP_ClientType"); (8%nat, "RANAP_ResponseTime"); (9%nat, "RANAP_IncludeVelocity"); (10%nat, "RANAP_PeriodicLocationInfo"); (11%nat, "RANAP_IE_Extensions")]) (* src/ranap/RANAP_LocationReportingTransferInformation.c *);
    ("RANAP_LoggedMDT", [(0%nat, "RANAP_LoggingInterval"); (1%nat, "RANAP_LoggingDuration"); (2%nat, "RANAP_IE_Extensions")]) (* src/ranap/RANAP_LoggedMDT.c *);
    ("RANAP_M4_Collection_Parameters", [(0%nat, "RANAP_M4_Period"); (1%nat, "RANAP_M4_Threshold"); (2%nat, "RANAP_IE_Extensions")]) (* src/ranap/RANAP_M4-Collection-Parameters.c *);
    ("RANAP_M4Report", [(0%nat, "NULL"); (1%nat, "RANAP_M4_Collection_Parameters")]) (* src/ranap/RANAP_M4Report.c *);
    ("RANAP_M5Report", [(0%nat, "NULL"); (1%nat, "RANAP_M5_Period")]) (* src/ranap/RANAP_M5Report.c *);
    ("RANAP_M6Report", [(0%nat, "RANAP_M6_Period"); (1%nat, "RANAP_Links_to_log"); (2%nat, "RANAP_IE_Extensions")]) (* src/ranap/RANAP_M6Report.c *);
    ("RANAP_M7Report", [(0%nat, "RANAP_M7_Period"); (1%nat, "RANAP_Links_to_log"); (2%nat, "RANAP_IE_Extensions")]) (* src/ranap/RANAP_M7Report.c *);
    ("RANAP_MBMSCNDe_RegistrationRequest__mbmscnDe_RegistrationRequest_ies_2", [(0%nat, "RANAP_IE")]) (* src/ranap/RANAP_MBMSCNDe-RegistrationRequest.c *);
    ("RANAP_MBMSCNDe_RegistrationResponse__mbmscnDe_RegistrationResponse_ies_2", [(0%nat, "RANAP_IE")]) (* src/ranap/RANAP_MBMSCNDe-RegistrationResponse.c *);
    ("RANAP_MBMSRABEstablishmentIndication__mbmsrabEstablishmentIndication_ies_2", [(0%nat, "RANAP_IE")]) (* src/ranap/RANAP_MBMSRABEstablishmentIndication.c *);
    ("RANAP_MBMSRABRelease__mbmsrabRelease_ies_2", [(0%nat, "RANAP_IE")]) (* src/ranap/RANAP_MBMSRABRelease.c *);
    ("RANAP_MBMSRABReleaseFailure__mbmsrabReleaseFailure_ies_2", [(0%nat, "RANAP_IE")]) (* src/ranap/RANAP_MBMSRABReleaseFailure.c *);
    ("RANAP_MBMSRABReleaseRequest__mbmsrabReleaseRequest_ies_2", [(0%nat, "RANAP_IE")]) (* src/ranap/RANAP_MBMSRABReleaseRequest.c *);
    ("RANAP_MBMSRegistrationFailure__mbmsRegistrationFailure_ies_2", [(0%nat, "RANAP_IE")]) (* src/ranap/RANAP_MBMSRegistrationFailure.c *);
    ("RANAP_MBMSRegistrationRequest__mbmsRegistrationRequest_ies_2", [(0%nat, "RANAP_IE")]) (* src/ranap/RANAP_MBMSRegistrationRequest.c *);
    ("RANAP_MBMSRegistrationResponse__mbmsRegistrationResponse_ies_2", [(0%nat, "RANAP_IE")]) (* src/ranap/RANAP_MBMSRegistrationResponse.c *);
    ("RANAP_MBMSSessionStart__mbmsSessionStart_ies_2", [(0%nat, "RANAP_IE")]) (* src/ranap/RANAP_MBMSSessionStart.c *);
    ("RANAP_MBMSSessionStartFailure__mbmsSessionStartFailure_ies_2", [(0%nat, "RANAP_IE")]) (* src/ranap/RANAP_MBMSSessionStartFailure.c *);
    ("RANAP_MBMSSessionStartResponse__mbmsSessionStartResponse_ies_2", [(0%nat, "RANAP_IE")]) (* src/ranap/RANAP_MBMSSessionStartResponse.c *);
    ("RANAP_MBMSSessionStop__mbmsSessionStop_ies_2", [(0%nat, "RANAP_IE")]) (* src/ranap/RANAP_MBMSSessionStop.c *);
    ("RANAP_MBMSSessionStopResponse__mbmsSessionStopResponse_ies_2", [(0%nat, "RANAP_IE")]) (* src/ranap/RANAP_MBMSSessionStopResponse.c *);
    ("RANAP_MBMSSessionUpdate__mbmsSessionUpdate_ies_2", [(0%nat, "RANAP_IE")]) (* src/ranap/RANAP_MBMSSessionUpdate.c *);
    ("RANAP_MBMSSessionUpdateFailure__mbmsSessionUpdateFailure_ies_2", [(0%nat, "RANAP_IE")]) (* src/ranap/RANAP_MBMSSessionUpdateFailure.c *);
    ("RANAP_MBMSSessionUpdateResponse__mbmsSessionUpdateResponse_ies_2", [(0%nat, "RANAP_IE")]) (* src/ranap/RANAP_MBMSSessionUpdateResponse.c *);
    ("RANAP_MBMSSynchronisationInformation", [(0%nat, "RANAP_MBMSHCIndicator"); (1%nat, "RANAP_IPMulticastAddress"); (2%nat, "RANAP_GTP_TEI"); (3%nat, "RANAP_ProtocolExtensionContainer")]) (* src/ranap/RANAP_MBMSSynchronisationInformation.c *);
    ("RANAP_MBMSUELinkingRequest__mbmsueLinkingRequest_ies_2", [(0%nat, "RANAP_IE")]) (* src/ranap/RANAP_MBMSUELinkingRequest.c *);
    ("RANAP_MBMSUELinkingResponse__mbmsueLinkingResponse_ies_2", [(0%nat, "RANAP_IE")]) (* src/ranap/RANAP_MBMSUELinkingResponse.c *);
    ("RANAP_RAI", [(0%nat, "RANAP_LAI"); (1%nat, "RANAP_RAC"); (2%nat, "RANAP_IE_Extensions")]) (* src/ranap/RANAP_RAI.c *);
    ("RANAP_RAI_List", [(0%nat, "RANAP_RAI")]) (* src/ranap/RANAP_RAI-List.c *);
    ("RANAP_RABased", [(0%nat, "RANAP_RAI_List"); (1%nat, "RANAP_IE_Extensions")]) (* src/ranap/RANAP_RABased.c *);
    ("RANAP_MDTAreaScope", [(0%nat, "RANAP_CellBased"); (1%nat, "RANAP_LABased"); (2%nat, "RANAP_RABased"); (3%nat, "NULL")]) (* src/ranap/RANAP_MDTAreaScope.c *);
    ("RANAP_MDTMode", [(0%nat, "RANAP_ImmediateMDT"); (1%nat, "RANAP_LoggedMDT")]) (* src/ranap/RANAP_MDTMode.c *);
    ("RANAP_MDT_Configuration", [(0%nat, "RANAP_MDT_Activation"); (1%nat, "RANAP_MDTAreaScope"); (2%nat, "RANAP_MDTMode"); (3%nat, "RANAP_IE_Extensions")]) (* src/ranap/RANAP_MDT-Configuration.c *);
    ("RANAP_MDT_PLMN_List", [(0%nat, "RANAP_PLMNidentity")]) (* src/ranap/RANAP_MDT-PLMN-List.c *);
    ("RANAP_MessageStructure_Value", [(0%nat, "RANAP_ProtocolIE_ID"); (1%nat, "RANAP_RepetitionNumber1"); (2%nat, "RANAP_IE_Extensions")]) (* src/ranap/RANAP_MessageStructure-Value.c *);
    ("RANAP_MessageStructure", [(0%nat, "RANAP_MessageStructure_Value")]) (* src/ranap/RANAP_MessageStructure.c *);
    ("RANAP_RAofIdleModeUEs", [(0%nat, "RANAP_RAC")]) (* src/ranap/RANAP_RAofIdleModeUEs.c *);
    ("RANAP_NotEmptyRAListofIdleModeUEs", [(0%nat, "RANAP_RAofIdleModeUEs"); (1%nat, "RANAP_IE_Extensions")]) (* src/ranap/RANAP_NotEmptyRAListofIdleModeUEs.c *);
    ("RANAP_Offload_RAB_Parameters", [(0%nat, "RANAP_Offload_RAB_Parameters_APN"); (1%nat, "RANAP_Offload_RAB_Parameters_ChargingCharacteristics"); (2%nat, "RANAP_IE_Extensions")]) (* src/ranap/RANAP_Offload-RAB-Parameters.c *);
    ("RANAP_Outcome", [(0%nat, "RANAP_ProcedureCode"); (1%nat, "RANAP_Criticality"); (2%nat, "ANY")]) (* src/ranap/RANAP_Outcome.c *);
    ("RANAP_Overload__overload_ies_2", [(0%nat, "RANAP_IE")]) (* src/ranap/RANAP_Overload.c *);
    ("RANAP_PDP_TypeInformation_extension", [(0%nat, "RANAP_PDP_Type_extension")]) (* src/ranap/RANAP_PDP-TypeInformation-extension.c *);
    ("RANAP_PDP_TypeInformation", [(0%nat, "RANAP_PDP_Type")]) (* src/ranap/RANAP_PDP-TypeInformation.c *);
    ("RANAP_PLMNs_in_shared_network_Value", [(0%nat, "RANAP_PLMNidentity"); (1%nat, "RANAP_LA_LIST"); (2%nat, "RANAP_IE_Extensions")]) (* src/ranap/RANAP_PLMNs-in-shared-network-Value.c *);
    ("RANAP_PLMNs_in_shared_network", [(0%nat, "RANAP_PLMNs_in_shared_network_Value")]) (* src/ranap/RANAP_PLMNs-in-shared-network.c *);
    ("RANAP_Paging__paging_ies_2", [(0%nat, "RANAP_IE")]) (* src/ranap/RANAP_Paging.c *);
    ("RANAP_PagingAreaID", [(0%nat, "RANAP_LAI"); (1%nat, "RANAP_RAI")]) (* src/ranap/RANAP_PagingAreaID.c *);
    ("RANAP_PositioningDataSet", [(0%nat, "RANAP_PositioningMethodAndUsage")]) (* src/ranap/RANAP_PositioningDataSet.c *);
    ("RANAP_PositionData", [(0%nat, "RANAP_PositioningDataDiscriminator"); (1%nat, "RANAP_PositioningDataSet"); (2%nat, "RANAP_IE_Extensions")]) (* src/ranap/RANAP_PositionData.c *);
    ("RANAP_PrivateIE_ID", [(1%nat, "OBJECT_IDENTIFIER")]) (* src/ranap/RANAP_PrivateIE-ID.c *);
    ("RANAP_PrivateMessage__privateMessage_ies_2", [(0%nat, "RANAP_IE")]) (* src/ranap/RANAP_PrivateMessage.c *);
    ("RANAP_ProtocolError_IE_ContainerList", [(0%nat, "RANAP_ProtocolIE_Container")]) (* src/ranap/RANAP_ProtocolError-IE-ContainerList.c *);
    ("RANAP_ProtocolIE_FieldPair", [(0%nat, "RANAP_ProtocolIE_ID"); (1%nat, "RANAP_Criticality"); (2%nat, "ANY"); (3%nat, "RANAP_Criticality"); (4%nat, "ANY")]) (* src/ranap/RANAP_ProtocolIE-FieldPair.c *);
    ("RANAP_ProtocolIE_ContainerPair", [(0%nat, "RANAP_ProtocolIE_FieldPair")]) (* src/ranap/RANAP_ProtocolIE-ContainerPair.c *);
    ("RANAP_Shared_Network_Information", [(0%nat, "RANAP_PLMNs_in_shared_network"); (1%nat, "RANAP_IE_Extensions")]) (* src/ranap/RANAP_Shared-Network-Information.c *);
    ("RANAP_ProvidedData", [(0%nat, "RANAP_Shared_Network_Information")]) (* src/ranap/RANAP_ProvidedData.c *);
    ("RANAP_RAB_AssignmentRequest__raB_AssignmentRequest_ies_2", [(0%nat, "RANAP_IE")]) (* src/ranap/RANAP_RAB-AssignmentRequest.c *);
    ("RANAP_RAB_AssignmentResponse__raB_AssignmentResponse_ies_2", [(0%nat, "RANAP_IE")]) (* src/ranap/RANAP_RAB-AssignmentResponse.c *);
    ("RANAP_RAB_ContextItem_RANAP_RelocInf", [(0%nat, "RANAP_RAB_ID"); (1%nat, "RANAP_DL_GTP_PDU_SequenceNumber"); (2%nat, "RANAP_UL_GTP_PDU_SequenceNumber"); (3%nat, "RANAP_DL_N_PDU_SequenceNumber"); (4%nat, "RANAP_UL_N_PDU_SequenceNumber"); (5%nat, "RANAP_ProtocolExtensionContainer")]) (* src/ranap/RANAP_RAB-ContextItem-RANAP-RelocInf.c *);
    ("RANAP_RAB_ContextItem", [(0%nat, "RANAP_RAB_ID"); (1%nat, "RANAP_DL_GTP_PDU_SequenceNumber"); (2%nat, "RANAP_UL_GTP_PDU_SequenceNumber"); (3%nat, "RANAP_DL_N_PDU_SequenceNumber"); (4%nat, "RANAP_UL_N_PDU_SequenceNumber"); (5%nat, "RANAP_ProtocolExtensionContainer")]) (* src/ranap/RANAP_RAB-ContextItem.c *);
    ("RANAP_RAB_ContextList_RANAP_RelocInf__raB_ContextList_RANAP_RelocInf_ies_2", [(0%nat, "RANAP_IE")]) (* src/ranap/RANAP_RAB-ContextList-RANAP-RelocInf.c *);
    ("RANAP_RAB_ContextList__raB_ContextList_ies_2", [(0%nat, "RANAP_IE")]) (* src/ranap/RANAP_RAB-ContextList.c *);
    ("RANAP_RAB_DataForwardingItem_SRNS_CtxReq", [(0%nat, "RANAP_RAB_ID"); (1%nat, "RANAP_ProtocolExtensionContainer")]) (* src/ranap/RANAP_RAB-DataForwardingItem-SRNS-CtxReq.c *);
    ("RANAP_RAB_DataForwardingItem", [(0%nat, "RANAP_RAB_ID"); (1%nat, "RANAP_TransportLayerAddress"); (2%nat, "RANAP_IuTransportAssociation"); (3%nat, "RANAP_ProtocolExtensionContainer")]) (* src/ranap/RANAP_RAB-DataForwardingItem.c *);
    ("RANAP_RAB_DataForwardingList_SRNS_CtxReq__raB_DataForwardingList_SRNS_CtxReq_ies_2", [(0%nat, "RANAP_IE")]) (* src/ranap/RANAP_RAB-DataForwardingList-SRNS-CtxReq.c *);
    ("RANAP_RAB_DataForwardingList__raB_DataForwardingList_ies_2", [(0%nat, "RANAP_IE")]) (* src/ranap/RANAP_RAB-DataForwardingList.c *);
    ("RANAP_RAB_DataVolumeReportItem", [(0%nat, "RANAP_RAB_ID"); (1%nat, "RANAP_DataVolumeList"); (2%nat, "RANAP_ProtocolExtensionContainer")]) (* src/ranap/RANAP_RAB-DataVolumeReportItem.c *);
    ("RANAP_RAB_DataVolumeReportList__raB_DataVolumeReportList_ies_2", [(0%nat, "RANAP_IE")]) (* src/ranap/RANAP_RAB-DataVolumeReportList.c *);
    ("RANAP_RAB_DataVolumeReportRequestItem", [(0%nat, "RANAP_RAB_ID"); (1%nat, "RANAP_ProtocolExtensionContainer")]) (* src/ranap/RANAP_RAB-DataVolumeReportRequestItem.c *);
    ("RANAP_RAB_DataVolumeReportRequestList__raB_DataVolumeReportRequestList_ies_2", [(0%nat, "RANAP_IE")]) (* src/ranap/RANAP_RAB-DataVolumeReportRequestList.c *);
    ("RANAP_RAB_FailedItem_EnhRelocInfoRes", [(0%nat, "RANAP_CN_DomainIndicator"); (1%nat, "RANAP_RAB_ID"); (2%nat, "RANAP_Cause"); (3%nat, "RANAP_ProtocolExtensionContainer")]) (* src/ranap/RANAP_RAB-FailedItem-EnhRelocInfoRes.c *);
    ("RANAP_RAB_FailedItem", [(0%nat, "RANAP_RAB_ID"); (1%nat, "RANAP_Cause"); (2%nat, "RANAP_ProtocolExtensionContainer")]) (* src/ranap/RANAP_RAB-FailedItem.c *);
    ("RANAP_RAB_FailedList_EnhRelocInfoRes__raB_FailedList_EnhRelocInfoRes_ies_2", [(0%nat, "RANAP_IE")]) (* src/ranap/RANAP_RAB-FailedList-EnhRelocInfoRes.c *);
    ("RANAP_RAB_FailedList__raB_FailedList_ies_2", [(0%nat, "RANAP_IE")]) (* src/ranap/RANAP_RAB-FailedList.c *);
    ("RANAP_RAB_IE_ContainerList", [(0%nat, "RANAP_ProtocolIE_Container")]) (* src/ranap/RANAP_RAB-IE-ContainerList.c *);
    ("RANAP_RAB_IE_ContainerPairList", [(0%nat, "RANAP_ProtocolIE_ContainerPair")]) (* src/ranap/RANAP_RAB-IE-ContainerPairList.c *);
    ("RANAP_Requested_RAB_Parameter_MaxBitrateList", [(0%nat, "RANAP_MaxBitrate")]) (* src/ranap/RANAP_Requested-RAB-Parameter-MaxBitrateList.c *);
    ("RANAP_Requested_RAB_Parameter_GuaranteedBitrateList", [(0%nat, "RANAP_GuaranteedBitrate")]) (* src/ranap/RANAP_Requested-RAB-Parameter-GuaranteedBitrateList.c *);
    ("RANAP_Requested_RAB_Parameter_Values", [(0%nat, "RANAP_Requested_RAB_Parameter_MaxBitrateList"); (1%nat, "RANAP_Requested_RAB_Parameter_GuaranteedBitrateList"); (2%nat, "RANAP_IE_Extensions")]) (* src/ranap/RANAP_Requested-RAB-Parameter-Values.c *);
    ("RANAP_RAB_ModifyItem", [(0%nat, "RANAP_RAB_ID"); (1%nat, "RANAP_Requested_RAB_Parameter_Values"); (2%nat, "RANAP_ProtocolExtensionContainer")]) (* src/ranap/RANAP_RAB-ModifyItem.c *);
    ("RANAP_RAB_ModifyList__raB_ModifyList_ies_2", [(0%nat, "RANAP_IE")]) (* src/ranap/RANAP_RAB-ModifyList.c *);
    ("RANAP_RAB_ModifyRequest__raB_ModifyRequest_ies_2", [(0%nat, "RANAP_IE")]) (* src/ranap/RANAP_RAB-ModifyRequest.c *);
    ("RANAP_RAB_Parameter_ExtendedGuaranteedBitrateList", [(0%nat, "RANAP_ExtendedGuaranteedBitrate")]) (* src/ranap/RANAP_RAB-Parameter-ExtendedGuaranteedBitrateList.c *);
    ("RANAP_RAB_Parameter_ExtendedMaxBitrateList", [(0%nat, "RANAP_ExtendedMaxBitrate")]) (* src/ranap/RANAP_RAB-Parameter-ExtendedMaxBitrateList.c *);
    ("RANAP_RAB_Parameter_GuaranteedBitrateList", [(0%nat, "RANAP_GuaranteedBitrate")]) (* src/ranap/RANAP_RAB-Parameter-GuaranteedBitrateList.c *);
    ("RANAP_RAB_Parameter_MaxBitrateList", [(0%nat, "RANAP_MaxBitrate")]) (* src/ranap/RANAP_RAB-Parameter-MaxBitrateList.c *);
    ("RANAP_SDU_ErrorRatio", [(2%nat, "RANAP_IE_Extensions")]) (* src/ranap/RANAP_SDU-ErrorRatio.c *);
    ("RANAP_ResidualBitErrorRatio", [(2%nat, "RANAP_IE_Extensions")]) (* src/ranap/RANAP_ResidualBitErrorRatio.c *);
    ("RANAP_SDU_FormatInformationParameterItem", [(0%nat, "RANAP_SubflowSDU_Size"); (1%nat, "RANAP_RAB_SubflowCombinationBitRate"); (2%nat, "RANAP_IE_Extensions")]) (* src/ranap/RANAP_SDU-FormatInformationParameterItem.c *);
    ("RANAP_SDU_FormatInformationParameters", [(0%nat, "RANAP_SDU_FormatInformationParameterItem")]) (* src/ranap/RANAP_SDU-FormatInformationParameters.c *);
    ("RANAP_SDU_ParameterItem", [(0%nat, "RANAP_SDU_ErrorRatio"); (1%nat, "RANAP_ResidualBitErrorRatio"); (2%nat, "RANAP_DeliveryOfErroneousSDU"); (3%nat, "RANAP_SDU_FormatInformationParameters"); (4%nat, "RANAP_IE_Extensions")]) (* src/ranap/RANAP_SDU-ParameterItem.c *);
    ("RANAP_SDU_Parameters", [(0%nat, "RANAP_SDU_ParameterItem")]) (* src/ranap/RANAP_SDU-Parameters.c *);
    ("RANAP_RAB_Parameters", [(0%nat, "RANAP_TrafficClass"); (1%nat, "RANAP_RAB_AsymmetryIndicator"); (2%nat, "RANAP_RAB_Parameter_MaxBitrateList"); (3%nat, "RANAP_RAB_Parameter_GuaranteedBitrateList"); (4%nat, "RANAP_DeliveryOrder"); (5%nat, "RANAP_MaxSDU_Size"); (6%nat, "RANAP_SDU_Parameters"); (7%nat, "RANAP_TransferDelay"); (8%nat, "RANAP_TrafficHandlingPriority"); (9%nat, "RANAP_AllocationOrRetentionPriority"); (10%nat, "RANAP_SourceStatisticsDescriptor"); (11%nat, "RANAP_RelocationRequirement"); (12%nat, "RANAP_IE_Extensions")]) (* src/ranap/RANAP_RAB-Parameters.c *);
    ("RANAP_RAB_QueuedItem", [(0%nat, "RANAP_RAB_ID"); (1%nat, "RANAP_ProtocolExtensionContainer")]) (* src/ranap/RANAP_RAB-QueuedItem.c *);
    ("RANAP_RAB_QueuedList__raB_QueuedList_ies_2", [(0%nat, "RANAP_IE")]) (* src/ranap/RANAP_RAB-QueuedList.c *);
    ("RANAP_RAB_ReleaseItem", [(0%nat, "RANAP_RAB_ID"); (1%nat, "RANAP_Cause"); (2%nat, "RANAP_ProtocolExtensionContainer")]) (* src/ranap/RANAP_RAB-ReleaseItem.c *);
    ("RANAP_RAB_ReleaseList__raB_ReleaseList_ies_2", [(0%nat, "RANAP_IE")]) (* src/ranap/RANAP_RAB-ReleaseList.c *);
    ("RANAP_RAB_ReleaseRequest__raB_ReleaseRequest_ies_2", [(0%nat, "RANAP_IE")]) (* src/ranap/RANAP_RAB-ReleaseRequest.c *);
    ("RANAP_RAB_ReleasedItem_IuRelComp", [(0%nat, "RANAP_RAB_ID"); (1%nat, "RANAP_DL_GTP_PDU_SequenceNumber"); (2%nat, "RANAP_UL_GTP_PDU_SequenceNumber"); (3%nat, "RANAP_ProtocolExtensionContainer")]) (* src/ranap/RANAP_RAB-ReleasedItem-IuRelComp.c *);
    ("RANAP_RAB_ReleasedItem", [(0%nat, "RANAP_RAB_ID"); (1%nat, "RANAP_DataVolumeList"); (2%nat, "RANAP_DL_GTP_PDU_SequenceNumber"); (3%nat, "RANAP_UL_GTP_PDU_SequenceNumber"); (4%nat, "RANAP_ProtocolExtensionContainer")]) (* src/ranap/RANAP_RAB-ReleasedItem.c *);
    ("RANAP_RAB_ReleasedList_IuRelComp__raB_ReleasedList_IuRelComp_ies_2", [(0%nat, "RANAP_IE")]) (* src/ranap/RANAP_RAB-ReleasedList-IuRelComp.c *);
    ("RANAP_RAB_ReleasedList__raB_ReleasedList_ies_2", [(0%nat, "RANAP_IE")]) (* src/ranap/RANAP_RAB-ReleasedList.c *);
    ("RANAP_RAB_RelocationReleaseItem", [(0%nat, "RANAP_RAB_ID"); (1%nat, "RANAP_ProtocolExtensionContainer")]) (* src/ranap/RANAP_RAB-RelocationReleaseItem.c *);
    ("RANAP_RAB_RelocationReleaseList__raB_RelocationReleaseList_ies_2", [(0%nat, "RANAP_IE")]) (* src/ranap/RANAP_RAB-RelocationReleaseList.c *);
    ("RANAP_UserPlaneInformation", [(0%nat, "RANAP_UserPlaneMode"); (1%nat, "RANAP_UP_ModeVersions"); (2%nat, "RANAP_ProtocolExtensionContainer")]) (* src/ranap/RANAP_UserPlaneInformation.c *);
    ("RANAP_TNLInformationEnhRelInfoReq", [(0%nat, "RANAP_TransportLayerAddress"); (1%nat, "RANAP_IuTransportAssociation"); (2%nat, "RANAP_ProtocolExtensionContainer")]) (* src/ranap/RANAP_TNLInformationEnhRelInfoReq.c *);
    ("RANAP_RAB_SetupItem_EnhRelocInfoReq", [(0%nat, "RANAP_RAB_ID"); (1%nat, "RANAP_CN_DomainIndicator"); (2%nat, "RANAP_RAB_Parameters"); (3%nat, "RANAP_DataVolumeReportingIndication"); (4%nat, "RANAP_PDP_TypeInformation"); (5%nat, "RANAP_UserPlaneInformation"); (6%nat, "RANAP_TNLInformationEnhRelInfoReq"); (7%nat, "RANAP_TNLInformationEnhRelInfoReq"); (8%nat, "RANAP_Service_Handover"); (9%nat, "RANAP_Alt_RAB_Parameters"); (10%nat, "RANAP_ProtocolExtensionContainer")]) (* src/ranap/RANAP_RAB-SetupItem-EnhRelocInfoReq.c *);
    ("RANAP_TNLInformationEnhRelInfoRes", [(0%nat, "RANAP_TransportLayerAddress"); (1%nat, "RANAP_IuTransportAssociation"); (2%nat, "RANAP_ProtocolExtensionContainer")]) (* src/ranap/RANAP_TNLInformationEnhRelInfoRes.c *);
    ("RANAP_RAB_SetupItem_EnhRelocInfoRes", [(0%nat, "RANAP_CN_DomainIndicator"); (1%nat, "RANAP_RAB_ID"); (2%nat, "RANAP_TNLInformationEnhRelInfoRes"); (3%nat, "RANAP_Ass_RAB_Parameters"); (4%nat, "RANAP_ProtocolExtensionContainer")]) (* src/ranap/RANAP_RAB-SetupItem-EnhRelocInfoRes.c *);
    ("RANAP_RAB_SetupItem_EnhancedRelocCompleteReq", [(0%nat, "RANAP_RAB_ID"); (1%nat, "RANAP_TransportLayerAddress"); (2%nat, "RANAP_IuTransportAssociation"); (3%nat, "RANAP_Ass_RAB_Parameters"); (4%nat, "RANAP_ProtocolExtensionContainer")]) (* src/ranap/RANAP_RAB-SetupItem-EnhancedRelocCompleteReq.c *);
    ("RANAP_RAB_ToBeReleasedList_EnhancedRelocCompleteRes__raB_ToBeReleasedList_EnhancedRelocCompleteRes_ies_2", [(0%nat, "RANAP_IE")]) (* src/ranap/RANAP_RAB-ToBeReleasedList-EnhancedRelocCompleteRes.c *);
    ("RANAP_RAB_SetupItem_EnhancedRelocCompleteRes", [(0%nat, "RANAP_RAB_ID"); (1%nat, "RANAP_RAB_Parameters"); (2%nat, "RANAP_UserPlaneInformation"); (3%nat, "RANAP_TransportLayerAddress"); (4%nat, "RANAP_IuTransportAssociation"); (5%nat, "RANAP_RAB_ToBeReleasedList_EnhancedRelocCompleteRes"); (6%nat, "RANAP_ProtocolExtensionContainer")]) (* src/ranap/RANAP_RAB-SetupItem-EnhancedRelocCompleteRes.c *);
    ("RANAP_RAB_SetupItem_RelocReq", [(0%nat, "RANAP_RAB_ID"); (1%nat, "RANAP_NAS_SynchronisationIndicator"); (2%nat, "RANAP_RAB_Parameters"); (3%nat, "RANAP_DataVolumeReportingIndication"); (4%nat, "RANAP_PDP_TypeInformation"); (5%nat, "RANAP_UserPlaneInformation"); (6%nat, "RANAP_TransportLayerAddress"); (7%nat, "RANAP_IuTransportAssociation"); (8%nat, "RANAP_Service_Handover"); (9%nat, "RANAP_ProtocolExtensionContainer")]) (* src/ranap/RANAP_RAB-SetupItem-RelocReq.c *);
    ("RANAP_RAB_SetupItem_RelocReqAck", [(0%nat, "RANAP_RAB_ID"); (1%nat, "RANAP_TransportLayerAddress"); (2%nat, "RANAP_IuTransportAssociation"); (3%nat, "RANAP_ProtocolExtensionContainer")]) (* src/ranap/RANAP_RAB-SetupItem-RelocReqAck.c *);
    ("RANAP_RAB_SetupList_EnhRelocInfoReq__raB_SetupList_EnhRelocInfoReq_ies_2", [(0%nat, "RANAP_IE")]) (* src/ranap/RANAP_RAB-SetupList-EnhRelocInfoReq.c *);
    ("RANAP_RAB_SetupList_EnhRelocInfoRes__raB_SetupList_EnhRelocInfoRes_ies_2", [(0%nat, "RANAP_IE")]) (* src/ranap/RANAP_RAB-SetupList-EnhRelocInfoRes.c *);
    ("RANAP_RAB_SetupList_EnhancedRelocCompleteReq__raB_SetupList_EnhancedRelocCompleteReq_ies_2", [(0%nat, "RANAP_IE")]) (* src/ranap/RANAP_RAB-SetupList-EnhancedRelocCompleteReq.c *);
    ("RANAP_RAB_SetupList_EnhancedRelocCompleteRes__raB_SetupList_EnhancedRelocCompleteRes_ies_2", [(0%nat, "RANAP_IE")]) (* src/ranap/RANAP_RAB-SetupList-EnhancedRelocCompleteRes.c *);
    ("RANAP_RAB_SetupList_RelocReq__raB_SetupList_RelocReq_ies_2", [(0%nat, "RANAP_IE")]) (* src/ranap/RANAP_RAB-SetupList-RelocReq.c *);
    ("RANAP_RAB_SetupList_RelocReqAck__raB_SetupList_RelocReqAck_ies_2", [(0%nat, "RANAP_IE")]) (* src/ranap/RANAP_RAB-SetupList-RelocReqAck.c *);
    ("RANAP_RAB_SetupOrModifiedItem", [(0%nat, "RANAP_RAB_ID"); (1%nat, "RANAP_TransportLayerAddress"); (2%nat, "RANAP_IuTransportAssociation"); (3%nat, "RANAP_DataVolumeList"); (4%nat, "RANAP_ProtocolExtensionContainer")]) (* src/ranap/RANAP_RAB-SetupOrModifiedItem.c *);
    ("RANAP_RAB_SetupOrModifiedList__raB_SetupOrModifiedList_ies_2", [(0%nat, "RANAP_IE")]) (* src/ranap/RANAP_RAB-SetupOrModifiedList.c *);
    ("RANAP_TransportLayerInformation", [(0%nat, "RANAP_TransportLayerAddress"); (1%nat, "RANAP_IuTransportAssociation"); (2%nat, "RANAP_ProtocolExtensionContainer")]) (* src/ranap/RANAP_TransportLayerInformation.c *);
    ("RANAP_RAB_SetupOrModifyItemFirst", [(0%nat, "RANAP_RAB_ID"); (1%nat, "RANAP_NAS_SynchronisationIndicator"); (2%nat, "RANAP_RAB_Parameters"); (3%nat, "RANAP_UserPlaneInformation"); (4%nat, "RANAP_TransportLayerInformation"); (5%nat, "RANAP_Service_Handover"); (6%nat, "RANAP_ProtocolExtensionContainer")]) (* src/ranap/RANAP_RAB-SetupOrModifyItemFirst.c *);
    ("RANAP_RAB_SetupOrModifyItemSecond", [(0%nat, "RANAP_PDP_TypeInformation"); (1%nat, "RANAP_DataVolumeReportingIndication"); (2%nat, "RANAP_DL_GTP_PDU_SequenceNumber"); (3%nat, "RANAP_UL_GTP_PDU_SequenceNumber"); (4%nat, "RANAP_DL_N_PDU_SequenceNumber"); (5%nat, "RANAP_UL_N_PDU_SequenceNumber"); (6%nat, "RANAP_ProtocolExtensionContainer")]) (* src/ranap/RANAP_RAB-SetupOrModifyItemSecond.c *);
    ("RANAP_RAB_ToBeReleasedItem_EnhancedRelocCompleteRes", [(0%nat, "RANAP_RAB_ID"); (1%nat, "RANAP_Cause"); (2%nat, "RANAP_ProtocolExtensionContainer")]) (* src/ranap/RANAP_RAB-ToBeReleasedItem-EnhancedRelocCompleteRes.c *);
    ("RANAP_TrCH_ID", [(0%nat, "RANAP_DCH_ID"); (1%nat, "RANAP_DSCH_ID"); (2%nat, "RANAP_USCH_ID"); (3%nat, "RANAP_IE_Extensions")]) (* src/ranap/RANAP_TrCH-ID.c *);
    ("RANAP_TrCH_ID_List", [(0%nat, "RANAP_TrCH_ID")]) (* src/ranap/RANAP_TrCH-ID-List.c *);
    ("RANAP_RAB_TrCH_MappingItem", [(0%nat, "RANAP_RAB_ID"); (1%nat, "RANAP_TrCH_ID_List"); (2%nat, "RANAP_IE_Extensions")]) (* src/ranap/RANAP_RAB-TrCH-MappingItem.c *);
    ("RANAP_RAB_TrCH_Mapping", [(0%nat, "RANAP_RAB_TrCH_MappingItem")]) (* src/ranap/RANAP_RAB-TrCH-Mapping.c *);
    ("RANAP_RABDataVolumeReport_Value", [(0%nat, "RANAP_UnsuccessfullyTransmittedDataVolume"); (1%nat, "RANAP_DataVolumeReference"); (2%nat, "RANAP_IE_Extensions")]) (* src/ranap/RANAP_RABDataVolumeReport-Value.c *);
    ("RANAP_RABDataVolumeReport", [(0%nat, "RANAP_RABDataVolumeReport_Value")]) (* src/ranap/RANAP_RABDataVolumeReport.c *);
    ("RANAP_UPInformation", [(0%nat, "RANAP_FrameSequenceNumber"); (1%nat, "RANAP_FrameSequenceNumber"); (2%nat, "RANAP_PDUType14FrameSequenceNumber"); (3%nat, "RANAP_PDUType14FrameSequenceNumber"); (4%nat, "RANAP_DataPDUType"); (5%nat, "RANAP_UPInitialisationFrame"); (6%nat, "RANAP_IE_Extensions")]) (* src/ranap/RANAP_UPInformation.c *);
    ("RANAP_RABParametersList_Value", [(0%nat, "RANAP_RAB_ID"); (1%nat, "RANAP_CN_DomainIndicator"); (2%nat, "RANAP_RABDataVolumeReport"); (3%nat, "RANAP_UPInformation"); (4%nat, "RANAP_IE_Extensions")]) (* src/ranap/RANAP_RABParametersList-Value.c *);
    ("RANAP_RABParametersList", [(0%nat, "RANAP_RABParametersList_Value")]) (* src/ranap/RANAP_RABParametersList.c *);
    ("RANAP_RABs_ContextFailedtoTransferItem", [(0%nat, "RANAP_RAB_ID"); (1%nat, "RANAP_Cause"); (2%nat, "RANAP_ProtocolExtensionContainer")]) (* src/ranap/RANAP_RABs-ContextFailedtoTransferItem.c *);
    ("RANAP_RABs_ContextFailedtoTransferList__raBs_ContextFailedtoTransferList_ies_2", [(0%nat, "RANAP_IE")]) (* src/ranap/RANAP_RABs-ContextFailedtoTransferList.c *);
    ("RANAP_RABs_failed_to_reportItem", [(0%nat, "RANAP_RAB_ID"); (1%nat, "RANAP_Cause"); (2%nat, "RANAP_ProtocolExtensionContainer")]) (* src/ranap/RANAP_RABs-failed-to-reportItem.c *);
    ("RANAP_RABs_failed_to_reportList__raBs_failed_to_reportList_ies_2", [(0%nat, "RANAP_IE")]) (* src/ranap/RANAP_RABs-failed-to-reportList.c *);
    ("RANAP_RAListofIdleModeUEs", [(0%nat, "RANAP_NotEmptyRAListofIdleModeUEs"); (1%nat, "RANAP_RAListofIdleModeUEs__emptyFullRAListofIdleModeUEs_3")]) (* src/ranap/RANAP_RAListofIdleModeUEs.c *);
    ("RANAP_RANAP_EnhancedRelocationInformationRequest__ranaP_EnhancedRelocationInformationRequest_ies_2", [(0%nat, "RANAP_IE")]) (* src/ranap/RANAP_RANAP-EnhancedRelocationInformationRequest.c *);
    ("RANAP_RANAP_EnhancedRelocationInformationResponse__ranaP_EnhancedRelocationInformationResponse_ies_2", [(0%nat, "RANAP_IE")]) (* src/ranap/RANAP_RANAP-EnhancedRelocationInformationResponse.c *);
    ("RANAP_SuccessfulOutcome", [(0%nat, "RANAP_ProcedureCode"); (1%nat, "RANAP_Criticality"); (2%nat, "ANY")]) (* src/ranap/RANAP_SuccessfulOutcome.c *);
    ("RANAP_UnsuccessfulOutcome", [(0%nat, "RANAP_ProcedureCode"); (1%nat, "RANAP_Criticality"); (2%nat, "ANY")]) (* src/ranap/RANAP_UnsuccessfulOutcome.c *);
    ("RANAP_RANAP_PDU", [(0%nat, "RANAP_InitiatingMessage"); (1%nat, "RANAP_SuccessfulOutcome"); (2%nat, "RANAP_UnsuccessfulOutcome"); (3%nat, "RANAP_Outcome")]) (* src/ranap/RANAP_RANAP-PDU.c *);
    ("RANAP_RANAP_RelocationInformation__ranaP_RelocationInformation_ies_2", [(0%nat, "RANAP_IE")]) (* src/ranap/RANAP_RANAP-RelocationInformation.c *);
    ("RANAP_UE_ID", [(0%nat, "RANAP_IMSI"); (1%nat, "RANAP_IMEI"); (2%nat, "RANAP_IMEISV")]) (* src/ranap/RANAP_UE-ID.c *);
    ("RANAP_TracePropagationParameters", [(0%nat, "RANAP_TraceRecordingSessionReference"); (1%nat, "RANAP_TraceDepth"); (2%nat, "RANAP_ListOfInterfacesToTrace"); (3%nat, "RANAP_IE_Extensions")]) (* src/ranap/RANAP_TracePropagationParameters.c *);
    ("RANAP_TraceInformation", [(0%nat, "RANAP_TraceReference"); (1%nat, "RANAP_UE_ID"); (2%nat, "RANAP_TracePropagationParameters"); (3%nat, "RANAP_IE_Extensions")]) (* src/ranap/RANAP_TraceInformation.c *);
    ("RANAP_RNSAPRelocationParameters", [(0%nat, "RANAP_RABParametersList"); (1%nat, "RANAP_LocationReportingTransferInformation"); (2%nat, "RANAP_TraceInformation"); (3%nat, "RANAP_SAI"); (4%nat, "RANAP_IE_Extensions")]) (* src/ranap/RANAP_RNSAPRelocationParameters.c *);
    ("RANAP_RSRQ_Type", [(0%nat, "BOOLEAN"); (1%nat, "BOOLEAN")]) (* src/ranap/RANAP_RSRQ-Type.c *);
    ("RANAP_RSRVCC_Information", [(2%nat, "RANAP_IE_Extensions")]) (* src/ranap/RANAP_RSRVCC-Information.c *);
    ("RANAP_RedirectionIndication__redirectionIndication_ies_2", [(0%nat, "RANAP_IE")]) (* src/ranap/RANAP_RedirectionIndication.c *);
    ("RANAP_RelocationCancel__relocationCancel_ies_2", [(0%nat, "RANAP_IE")]) (* src/ranap/RANAP_RelocationCancel.c *);
    ("RANAP_RelocationCancelAcknowledge__relocationCancelAcknowledge_ies_2", [(0%nat, "RANAP_IE")]) (* src/ranap/RANAP_RelocationCancelAcknowledge.c *);
    ("RANAP_RelocationCommand__relocationCommand_ies_2", [(0%nat, "RANAP_IE")]) (* src/ranap/RANAP_RelocationCommand.c *);
    ("RANAP_RelocationComplete__relocationComplete_ies_2", [(0%nat, "RANAP_IE")]) (* src/ranap/RANAP_RelocationComplete.c *);
    ("RANAP_RelocationDetect__relocationDetect_ies_2", [(0%nat, "RANAP_IE")]) (* src/ranap/RANAP_RelocationDetect.c *);
    ("RANAP_RelocationFailure__relocationFailure_ies_2", [(0%nat, "RANAP_IE")]) (* src/ranap/RANAP_RelocationFailure.c *);
    ("RANAP_RelocationPreparationFailure__relocationPreparationFailure_ies_2", [(0%nat, "RANAP_IE")]) (* src/ranap/RANAP_RelocationPreparationFailure.c *);
    ("RANAP_RelocationRequest__relocationRequest_ies_2", [(0%nat, "RANAP_IE")]) (* src/ranap/RANAP_RelocationRequest.c *);
    ("RANAP_RelocationRequestAcknowledge__relocationRequestAcknowledge_ies_2", [(0%nat, "RANAP_IE")]) (* src/ranap/RANAP_RelocationRequestAcknowledge.c *);
    ("RANAP_RelocationRequired__relocationRequired_ies_2", [(0%nat, "RANAP_IE")]) (* src/ranap/RANAP_RelocationRequired.c *);
    ("RANAP_RequestType", [(0%nat, "RANAP_Event"); (1%nat, "RANAP_ReportArea")]) (* src/ranap/RANAP_RequestType.c *);
    ("RANAP_Requested_RAB_Parameter_ExtendedGuaranteedBitrateList", [(0%nat, "RANAP_ExtendedGuaranteedBitrate")]) (* src/ranap/RANAP_Requested-RAB-Parameter-ExtendedGuaranteedBitrateList.c *);
    ("RANAP_Requested_RAB_Parameter_ExtendedMaxBitrateList", [(0%nat, "RANAP_ExtendedMaxBitrate")]) (* src/ranap/RANAP_Requested-RAB-Parameter-ExtendedMaxBitrateList.c *);
    ("RANAP_Reset__reset_ies_2", [(0%nat, "RANAP_IE")]) (* src/ranap/RANAP_Reset.c *);
    ("RANAP_ResetAcknowledge__resetAcknowledge_ies_2", [(0%nat, "RANAP_IE")]) (* src/ranap/RANAP_ResetAcknowledge.c *);
    ("RANAP_ResetResource__resetResource_ies_2", [(0%nat, "RANAP_IE")]) (* src/ranap/RANAP_ResetResource.c *);
    ("RANAP_ResetResourceAckItem", [(0%nat, "RANAP_IuSignallingConnectionIdentifier"); (1%nat, "RANAP_ProtocolExtensionContainer")]) (* src/ranap/RANAP_ResetResourceAckItem.c *);
    ("RANAP_ResetResourceAckList__resetResourceAckList_ies_2", [(0%nat, "RANAP_IE")]) (* src/ranap/RANAP_ResetResourceAckList.c *);
    ("RANAP_ResetResourceAcknowledge__resetResourceAcknowledge_ies_2", [(0%nat, "RANAP_IE")]) (* src/ranap/RANAP_ResetResourceAcknowledge.c *);
    ("RANAP_ResetResourceItem", [(0%nat, "RANAP_IuSignallingConnectionIdentifier"); (1%nat, "RANAP_ProtocolExtensionContainer")]) (* src/ranap/RANAP_ResetResourceItem.c *);
    ("RANAP_ResetResourceList__resetResourceList_ies_2", [(0%nat, "RANAP_IE")]) (* src/ranap/RANAP_ResetResourceList.c *);
    ("RANAP_SNA_Access_Information", [(0%nat, "RANAP_AuthorisedPLMNs"); (1%nat, "RANAP_IE_Extensions")]) (* src/ranap/RANAP_SNA-Access-Information.c *);
    ("RANAP_SRB_TrCH_MappingItem", [(0%nat, "RANAP_SRB_ID"); (1%nat, "RANAP_TrCH_ID"); (2%nat, "RANAP_IE_Extensions")]) (* src/ranap/RANAP_SRB-TrCH-MappingItem.c *);
    ("RANAP_SRB_TrCH_Mapping", [(0%nat, "RANAP_SRB_TrCH_MappingItem")]) (* src/ranap/RANAP_SRB-TrCH-Mapping.c *);
    ("RANAP_SRNS_ContextRequest__srnS_ContextRequest_ies_2", [(0%nat, "RANAP_IE")]) (* src/ranap/RANAP_SRNS-ContextRequest.c *);
    ("RANAP_SRNS_ContextResponse__srnS_ContextResponse_ies_2", [(0%nat, "RANAP_IE")]) (* src/ranap/RANAP_SRNS-ContextResponse.c *);
    ("RANAP_SRNS_DataForwardCommand__srnS_DataForwardCommand_ies_2", [(0%nat, "RANAP_IE")]) (* src/ranap/RANAP_SRNS-DataForwardCommand.c *);
    ("RANAP_SRVCC_CSKeysRequest__srvcC_CSKeysRequest_ies_2", [(0%nat, "RANAP_IE")]) (* src/ranap/RANAP_SRVCC-CSKeysRequest.c *);
    ("RANAP_SRVCC_CSKeysResponse__srvcC_CSKeysResponse_ies_2", [(0%nat, "RANAP_IE")]) (* src/ranap/RANAP_SRVCC-CSKeysResponse.c *);
    ("RANAP_SRVCC_Information", [(1%nat, "RANAP_IE_Extensions")]) (* src/ranap/RANAP_SRVCC-Information.c *);
    ("RANAP_SecurityModeCommand__securityModeCommand_ies_2", [(0%nat, "RANAP_IE")]) (* src/ranap/RANAP_SecurityModeCommand.c *);
    ("RANAP_SecurityModeComplete__securityModeComplete_ies_2", [(0%nat, "RANAP_IE")]) (* src/ranap/RANAP_SecurityModeComplete.c *);
    ("RANAP_SecurityModeReject__securityModeReject_ies_2", [(0%nat, "RANAP_IE")]) (* src/ranap/RANAP_SecurityModeReject.c *);
    ("RANAP_SourceRNC_ID", [(0%nat, "RANAP_PLMNidentity"); (1%nat, "RANAP_RNC_ID"); (2%nat, "RANAP_IE_Extensions")]) (* src/ranap/RANAP_SourceRNC-ID.c *);
    ("RANAP_SourceID", [(0%nat, "RANAP_SourceRNC_ID"); (1%nat, "RANAP_SAI")]) (* src/ranap/RANAP_SourceID.c *);
    ("RANAP_SourceRNC_ToTargetRNC_TransparentContainer", [(0%nat, "RANAP_RRC_Container"); (1%nat, "RANAP_NumberOfIuInstances"); (2%nat, "RANAP_RelocationType"); (3%nat, "RANAP_ChosenIntegrityProtectionAlgorithm"); (4%nat, "RANAP_IntegrityProtectionKey"); (5%nat, "RANAP_ChosenEncryptionAlgorithm"); (6%nat, "RANAP_EncryptionKey"); (7%nat, "RANAP_ChosenEncryptionAlgorithm"); (8%nat, "RANAP_ChosenEncryptionAlgorithm"); (9%nat, "RANAP_D_RNTI"); (10%nat, "RANAP_TargetCellId"); (11%nat, "RANAP_RAB_TrCH_Mapping"); (12%nat, "RANAP_IE_Extensions")]) (* src/ranap/RANAP_SourceRNC-ToTargetRNC-TransparentContainer.c *);
    ("RANAP_TargetID", [(0%nat, "RANAP_TargetRNC_ID"); (1%nat, "RANAP_CGI"); (2%nat, "RANAP_TargetENB_ID")]) (* src/ranap/RANAP_TargetID.c *);
    ("RANAP_TargetRNC_ToSourceRNC_TransparentContainer", [(0%nat, "RANAP_RRC_Container"); (1%nat, "RANAP_D_RNTI"); (2%nat, "RANAP_IE_Extensions")]) (* src/ranap/RANAP_TargetRNC-ToSourceRNC-TransparentContainer.c *);
    ("RANAP_TemporaryUE_ID", [(0%nat, "RANAP_TMSI"); (1%nat, "RANAP_P_TMSI")]) (* src/ranap/RANAP_TemporaryUE-ID.c *);
    ("RANAP_TraceRecordingSessionInformation", [(0%nat, "RANAP_TraceReference"); (1%nat, "RANAP_TraceRecordingSessionReference"); (2%nat, "RANAP_IE_Extensions")]) (* src/ranap/RANAP_TraceRecordingSessionInformation.c *);
    ("RANAP_TunnelInformation", [(0%nat, "RANAP_TransportLayerAddress"); (1%nat, "RANAP_Port_Number"); (2%nat, "RANAP_IE_Extensions")]) (* src/ranap/RANAP_TunnelInformation.c *);
    ("RANAP_UE_AggregateMaximumBitRate", [(0%nat, "RANAP_UE_AggregateMaximumBitRateDownlink"); (1%nat, "RANAP_UE_AggregateMaximumBitRateUplink")]) (* src/ranap/RANAP_UE-AggregateMaximumBitRate.c *);
    ("RANAP_UESBI_Iu", [(0%nat, "RANAP_UESBI_IuA"); (1%nat, "RANAP_UESBI_IuB"); (2%nat, "RANAP_IE_Extensions")]) (* src/ranap/RANAP_UESBI-Iu.c *);
    ("RANAP_UESpecificInformationIndication__ueSpecificInformationIndication_ies_2", [(0%nat, "RANAP_IE")]) (* src/ranap/RANAP_UESpecificInformationIndication.c *);
    ("RANAP_UeRadioCapabilityMatchRequest__ueRadioCapabilityMatchRequest_ies_2", [(0%nat, "RANAP_IE")]) (* src/ranap/RANAP_UeRadioCapabilityMatchRequest.c *);
    ("RANAP_UeRadioCapabilityMatchResponse__ueRadioCapabilityMatchResponse_ies_2", [(0%nat, "RANAP_IE")]) (* src/ranap/RANAP_UeRadioCapabilityMatchResponse.c *);
    ("RANAP_UnsuccessfulLinking_IEs_Value", [(0%nat, "RANAP_TMGI"); (1%nat, "RANAP_Cause"); (2%nat, "RANAP_ProtocolExtensionContainer")]) (* src/ranap/RANAP_UnsuccessfulLinking-IEs-Value.c *);
    ("RANAP_UnsuccessfulLinking_IEs", [(0%nat, "RANAP_UnsuccessfulLinking_IEs_Value")]) (* src/ranap/RANAP_UnsuccessfulLinking-IEs.c *);
    ("RANAP_UplinkInformationExchangeFailure__uplinkInformationExchangeFailure_ies_2", [(0%nat, "RANAP_IE")]) (* src/ranap/RANAP_UplinkInformationExchangeFailure.c *);
    ("RANAP_UplinkInformationExchangeRequest__uplinkInformationExchangeRequest_ies_2", [(0%nat, "RANAP_IE")]) (* src/ranap/RANAP_UplinkInformationExchangeRequest.c *);
    ("RANAP_UplinkInformationExchangeResponse__uplinkInformationExchangeResponse_ies_2", [(0%nat, "RANAP_IE")]) (* src/ranap/RANAP_UplinkInformationExchangeResponse.c *);
    ("RANAP_VelocityEstimate", [(0%nat, "RANAP_HorizontalVelocity"); (1%nat, "RANAP_HorizontalWithVerticalVelocity"); (2%nat, "RANAP_HorizontalVelocityWithUncertainty"); (3%nat, "RANAP_HorizontalWithVerticalVelocityAndUncertainty")]) (* src/ranap/RANAP_VelocityEstimate.c *);
    ("RUA_Cause", [(0%nat, "RUA_CauseRadioNetwork"); (1%nat, "RUA_CauseTransport"); (2%nat, "RUA_CauseProtocol"); (3%nat, "RUA_CauseMisc")]) (* src/rua/RUA_Cause.c *);
    ("RUA_IE", [(0%nat, "RUA_ProtocolIE_ID"); (1%nat, "RUA_Criticality"); (2%nat, "ANY")]) (* src/rua/RUA_IE.c *);
    ("RUA_Connect__connect_ies_2", [(0%nat, "RUA_IE")]) (* src/rua/RUA_Connect.c *);
    ("RUA_ConnectionlessTransfer__connectionlessTransfer_ies_2", [(0%nat, "RUA_IE")]) (* src/rua/RUA_ConnectionlessTransfer.c *);
    ("RUA_IE_Extensions", [(0%nat, "RUA_IE")]) (* src/rua/RUA_IE-Extensions.c *);
    ("RUA_CriticalityDiagnostics_IE_List_Value", [(0%nat, "RUA_Criticality"); (1%nat, "RUA_ProtocolIE_ID"); (2%nat, "RUA_TypeOfError"); (3%nat, "RUA_IE_Extensions")]) (* src/rua/RUA_CriticalityDiagnostics-IE-List-Value.c *);
    ("RUA_CriticalityDiagnostics_IE_List", [(0%nat, "RUA_CriticalityDiagnostics_IE_List_Value")]) (* src/rua/RUA_CriticalityDiagnostics-IE-List.c *);
    ("RUA_CriticalityDiagnostics", [(0%nat, "RUA_ProcedureCode"); (1%nat, "RUA_TriggeringMessage"); (2%nat, "RUA_Criticality"); (3%nat, "RUA_CriticalityDiagnostics_IE_List"); (4%nat, "RUA_IE_Extensions")]) (* src/rua/RUA_CriticalityDiagnostics.c *);
    ("RUA_DirectTransfer__directTransfer_ies_2", [(0%nat, "RUA_IE")]) (* src/rua/RUA_DirectTransfer.c *);
    ("RUA_Disconnect__disconnect_ies_2", [(0%nat, "RUA_IE")]) (* src/rua/RUA_Disconnect.c *);
    ("RUA_ErrorIndication__errorIndication_ies_2", [(0%nat, "RUA_IE")]) (* src/rua/RUA_ErrorIndication.c *);
    ("RUA_Gsm_map_IDNNS__localPTMSI_3", [(0%nat, "RUA_RoutingParameter")]) (* src/rua/RUA_Gsm-map-IDNNS.c *);
    ("RUA_Gsm_map_IDNNS__tMSIofsamePLMN_5", [(0%nat, "RUA_RoutingParameter")]) (* src/rua/RUA_Gsm-map-IDNNS.c *);
    ("RUA_Gsm_map_IDNNS__tMSIofdifferentPLMN_7", [(0%nat, "RUA_RoutingParameter")]) (* src/rua/RUA_Gsm-map-IDNNS.c *);
    ("RUA_Gsm_map_IDNNS__iMSIresponsetopaging_9", [(0%nat, "RUA_RoutingParameter")]) (* src/rua/RUA_Gsm-map-IDNNS.c *);
    ("RUA_Gsm_map_IDNNS__iMSIcauseUEinitiatedEvent_11", [(0%nat, "RUA_RoutingParameter")]) (* src/rua/RUA_Gsm-map-IDNNS.c *);
    ("RUA_Gsm_map_IDNNS__iMEI_13", [(0%nat, "RUA_RoutingParameter")]) (* src/rua/RUA_Gsm-map-IDNNS.c *);
    ("RUA_Gsm_map_IDNNS__spare2_15", [(0%nat, "RUA_RoutingParameter")]) (* src/rua/RUA_Gsm-map-IDNNS.c *);
    ("RUA_Gsm_map_IDNNS__spare1_17", [(0%nat, "RUA_RoutingParameter")]) (* src/rua/RUA_Gsm-map-IDNNS.c *);
    ("RUA_Gsm_map_IDNNS__routingbasis_2", [(0%nat, "RUA_Gsm_map_IDNNS__localPTMSI_3"); (1%nat, "RUA_Gsm_map_IDNNS__tMSIofsamePLMN_5"); (2%nat, "RUA_Gsm_map_IDNNS__tMSIofdifferentPLMN_7"); (3%nat, "RUA_Gsm_map_IDNNS__iMSIresponsetopaging_9"); (4%nat, "RUA_Gsm_map_IDNNS__iMSIcauseUEinitiatedEvent_11"); (5%nat, "RUA_Gsm_map_IDNNS__iMEI_13"); (6%nat, "RUA_Gsm_map_IDNNS__spare2_15"); (7%nat, "RUA_Gsm_map_IDNNS__spare1_17")]) (* src/rua/RUA_Gsm-map-IDNNS.c *);
    ("RUA_Gsm_map_IDNNS", [(0%nat, "RUA_Gsm_map_IDNNS__routingbasis_2"); (1%nat, "BOOLEAN")]) (* src/rua/RUA_Gsm-map-IDNNS.c *);
    ("RUA_InitiatingMessage", [(0%nat, "RUA_ProcedureCode"); (1%nat, "RUA_Criticality"); (2%nat, "ANY")]) (* src/rua/RUA_InitiatingMessage.c *);
    ("RUA_IntraDomainNasNodeSelector__cn_Type_4", [(0%nat, "RUA_Gsm_map_IDNNS"); (1%nat, "RUA_Ansi_41_IDNNS")]) (* src/rua/RUA_IntraDomainNasNodeSelector.c *);
    ("RUA_IntraDomainNasNodeSelector__release99_3", [(0%nat, "RUA_IntraDomainNasNodeSelector__cn_Type_4")]) (* src/rua/RUA_IntraDomainNasNodeSelector.c *);
    ("RUA_IntraDomainNasNodeSelector__version_2", [(0%nat, "RUA_IntraDomainNasNodeSelector__release99_3"); (1%nat, "RUA_IntraDomainNasNodeSelector__later_7")]) (* src/rua/RUA_IntraDomainNasNodeSelector.c *);
    ("RUA_IntraDomainNasNodeSelector", [(0%nat, "RUA_IntraDomainNasNodeSelector__version_2")]) (* src/rua/RUA_IntraDomainNasNodeSelector.c *);
    ("RUA_PrivateIE_ID", [(1%nat, "OBJECT_IDENTIFIER")]) (* src/rua/RUA_PrivateIE-ID.c *);
    ("RUA_PrivateMessage__privateMessage_ies_2", [(0%nat, "RUA_IE")]) (* src/rua/RUA_PrivateMessage.c *);
    ("RUA_SuccessfulOutcome", [(0%nat, "RUA_ProcedureCode"); (1%nat, "RUA_Criticality"); (2%nat, "ANY")]) (* src/rua/RUA_SuccessfulOutcome.c *);
    ("RUA_UnsuccessfulOutcome", [(0%nat, "RUA_ProcedureCode"); (1%nat, "RUA_Criticality"); (2%nat, "ANY")]) (* src/rua/RUA_UnsuccessfulOutcome.c *);
    ("RUA_RUA_PDU", [(0%nat, "RUA_InitiatingMessage"); (1%nat, "RUA_SuccessfulOutcome"); (2%nat, "RUA_UnsuccessfulOutcome")]) (* src/rua/RUA_RUA-PDU.c *);
    ("HNBAP_IE", [(0%nat, "HNBAP_ProtocolIE_ID"); (1%nat, "HNBAP_Criticality"); (2%nat, "ANY")]) (* src/hnbap/HNBAP_IE.c *);
    ("HNBAP_IE_Extensions", [(0%nat, "HNBAP_IE")]) (* src/hnbap/HNBAP_IE-Extensions.c *);
    ("HNBAP_HNB_Cell_Identifier", [(0%nat, "HNBAP_PLMNidentity"); (1%nat, "HNBAP_CellIdentity"); (2%nat, "HNBAP_IE_Extensions")]) (* src/hnbap/HNBAP_HNB-Cell-Identifier.c *);
    ("HNBAP_HNB_RNL_Identity", [(0%nat, "HNBAP_HNB_Cell_Identifier")]) (* src/hnbap/HNBAP_HNB-RNL-Identity.c *);
    ("HNBAP_IP_Address__ipaddress_2", [(0%nat, "HNBAP_Ipv4Address"); (1%nat, "HNBAP_Ipv6Address")]) (* src/hnbap/HNBAP_IP-Address.c *);
    ("HNBAP_IP_Address", [(0%nat, "HNBAP_IP_Address__ipaddress_2"); (1%nat, "HNBAP_IE_Extensions")]) (* src/hnbap/HNBAP_IP-Address.c *);
    ("HNBAP_Iurh_Signalling_TNL_AddressList", [(0%nat, "HNBAP_IP_Address")]) (* src/hnbap/HNBAP_Iurh-Signalling-TNL-AddressList.c *);
    ("HNBAP_HNBConfigurationInformationProvided", [(0%nat, "HNBAP_PSC"); (1%nat, "HNBAP_CSG_ID"); (2%nat, "HNBAP_HNB_Cell_Access_Mode"); (3%nat, "HNBAP_Iurh_Signalling_TNL_AddressList"); (4%nat, "HNBAP_IE_Extensions")]) (* src/hnbap/HNBAP_HNBConfigurationInformationProvided.c *);
    ("HNBAP_Cause", [(0%nat, "HNBAP_CauseRadioNetwork"); (1%nat, "HNBAP_CauseTransport"); (2%nat, "HNBAP_CauseProtocol"); (3%nat, "HNBAP_CauseMisc")]) (* src/hnbap/HNBAP_Cause.c *);
    ("HNBAP_HNBConfigurationInformationMissing", [(0%nat, "HNBAP_Cause"); (1%nat, "HNBAP_IE_Extensions")]) (* src/hnbap/HNBAP_HNBConfigurationInformationMissing.c *);
    ("HNBAP_ConfigurationInformation", [(0%nat, "HNBAP_HNBConfigurationInformationProvided"); (1%nat, "HNBAP_HNBConfigurationInformationMissing")]) (* src/hnbap/HNBAP_ConfigurationInformation.c *);
    ("HNBAP_HNBConfigInfo", [(0%nat, "HNBAP_HNB_RNL_Identity"); (1%nat, "HNBAP_ConfigurationInformation"); (2%nat, "HNBAP_IE_Extensions")]) (* src/hnbap/HNBAP_HNBConfigInfo.c *);
    ("HNBAP_AdditionalNeighbourInfoList", [(0%nat, "HNBAP_HNBConfigInfo")]) (* src/hnbap/HNBAP_AdditionalNeighbourInfoList.c *);
    ("HNBAP_AltitudeAndDirection", [(0%nat, "HNBAP_AltitudeAndDirection__directionOfAltitude_2")]) (* src/hnbap/HNBAP_AltitudeAndDirection.c *);
    ("HNBAP_CGI", [(0%nat, "HNBAP_PLMNidentity"); (1%nat, "HNBAP_LAC"); (2%nat, "HNBAP_CI"); (3%nat, "HNBAP_IE_Extensions")]) (* src/hnbap/HNBAP_CGI.c *);
    ("HNBAP_CSGMembershipUpdate__csgMembershipUpdate_ies_2", [(0%nat, "HNBAP_IE")]) (* src/hnbap/HNBAP_CSGMembershipUpdate.c *);
    ("HNBAP_CriticalityDiagnostics_IE_List_Value", [(0%nat, "HNBAP_Criticality"); (1%nat, "HNBAP_ProtocolIE_ID"); (2%nat, "HNBAP_TypeOfError"); (3%nat, "HNBAP_IE_Extensions")]) (* src/hnbap/HNBAP_CriticalityDiagnostics-IE-List-Value.c *);
    ("HNBAP_CriticalityDiagnostics_IE_List", [(0%nat, "HNBAP_CriticalityDiagnostics_IE_List_Value")]) (* src/hnbap/HNBAP_CriticalityDiagnostics-IE-List.c *);
    ("HNBAP_CriticalityDiagnostics", [(0%nat, "HNBAP_ProcedureCode"); (1%nat, "HNBAP_TriggeringMessage"); (2%nat, "HNBAP_Criticality"); (3%nat, "HNBAP_CriticalityDiagnostics_IE_List"); (4%nat, "HNBAP_IE_Extensions")]) (* src/hnbap/HNBAP_CriticalityDiagnostics.c *);
    ("HNBAP_ErrorIndication__errorIndication_ies_2", [(0%nat, "HNBAP_IE")]) (* src/hnbap/HNBAP_ErrorIndication.c *);
    ("HNBAP_GeographicalCoordinates", [(0%nat, "HNBAP_GeographicalCoordinates__latitudeSign_2"); (3%nat, "HNBAP_IE_Extensions")]) (* src/hnbap/HNBAP_GeographicalCoordinates.c *);
    ("HNBAP_GeographicalLocation", [(0%nat, "HNBAP_GeographicalCoordinates"); (1%nat, "HNBAP_AltitudeAndDirection"); (2%nat, "HNBAP_IE_Extensions")]) (* src/hnbap/HNBAP_GeographicalLocation.c *);
    ("HNBAP_HNB_GWResponse", [(0%nat, "HNBAP_HNBConfigInfo"); (1%nat, "HNBAP_RNC_ID"); (2%nat, "HNBAP_UnknownU_RNTIIndication")]) (* src/hnbap/HNBAP_HNB-GWResponse.c *);
    ("HNBAP_HNB_Identity", [(0%nat, "HNBAP_HNB_Identity_Info"); (1%nat, "HNBAP_IE_Extensions")]) (* src/hnbap/HNBAP_HNB-Identity.c *);
    ("HNBAP_UTRANCellID", [(0%nat, "HNBAP_LAC"); (1%nat, "HNBAP_RAC"); (2%nat, "HNBAP_PLMNidentity"); (3%nat, "HNBAP_CellIdentity"); (4%nat, "HNBAP_IE_Extensions")]) (* src/hnbap/HNBAP_UTRANCellID.c *);
    ("HNBAP_MacroCellID", [(0%nat, "HNBAP_UTRANCellID"); (1%nat, "HNBAP_CGI")]) (* src/hnbap/HNBAP_MacroCellID.c *);
    ("HNBAP_MacroCoverageInformation", [(0%nat, "HNBAP_MacroCellID"); (1%nat, "HNBAP_IE_Extensions")]) (* src/hnbap/HNBAP_MacroCoverageInformation.c *);
    ("HNBAP_HNB_Location_Information", [(0%nat, "HNBAP_MacroCoverageInformation"); (1%nat, "HNBAP_GeographicalLocation"); (2%nat, "HNBAP_IE_Extensions")]) (* src/hnbap/HNBAP_HNB-Location-Information.c *);
    ("HNBAP_InitiatingMessage", [(0%nat, "HNBAP_ProcedureCode"); (1%nat, "HNBAP_Criticality"); (2%nat, "ANY")]) (* src/hnbap/HNBAP_InitiatingMessage.c *);
    ("HNBAP_SuccessfulOutcome", [(0%nat, "HNBAP_ProcedureCode"); (1%nat, "HNBAP_Criticality"); (2%nat, "ANY")]) (* src/hnbap/HNBAP_SuccessfulOutcome.c *);
    ("HNBAP_UnsuccessfulOutcome", [(0%nat, "HNBAP_ProcedureCode"); (1%nat, "HNBAP_Criticality"); (2%nat, "ANY")]) (* src/hnbap/HNBAP_UnsuccessfulOutcome.c *);
    ("HNBAP_HNBAP_PDU", [(0%nat, "HNBAP_InitiatingMessage"); (1%nat, "HNBAP_SuccessfulOutcome"); (2%nat, "HNBAP_UnsuccessfulOutcome")]) (* src/hnbap/HNBAP_HNBAP-PDU.c *);
    ("HNBAP_HNBConfigTransferRequest__hnbConfigTransferRequest_ies_2", [(0%nat, "HNBAP_IE")]) (* src/hnbap/HNBAP_HNBConfigTransferRequest.c *);
    ("HNBAP_HNBConfigTransferResponse__hnbConfigTransferResponse_ies_2", [(0%nat, "HNBAP_IE")]) (* src/hnbap/HNBAP_HNBConfigTransferResponse.c *);
    ("HNBAP_HNBDe_Register__hnbDe_Register_ies_2", [(0%nat, "HNBAP_IE")]) (* src/hnbap/HNBAP_HNBDe-Register.c *);
    ("HNBAP_HNBRegisterAccept__hnbRegisterAccept_ies_2", [(0%nat, "HNBAP_IE")]) (* src/hnbap/HNBAP_HNBRegisterAccept.c *);
    ("HNBAP_HNBRegisterReject__hnbRegisterReject_ies_2", [(0%nat, "HNBAP_IE")]) (* src/hnbap/HNBAP_HNBRegisterReject.c *);
    ("HNBAP_HNBRegisterRequest__hnbRegisterRequest_ies_2", [(0%nat, "HNBAP_IE")]) (* src/hnbap/HNBAP_HNBRegisterRequest.c *);
    ("HNBAP_IMSIESN", [(0%nat, "HNBAP_IMSIDS41"); (1%nat, "HNBAP_ESN")]) (* src/hnbap/HNBAP_IMSIESN.c *);
    ("HNBAP_LAI", [(0%nat, "HNBAP_PLMNidentity"); (1%nat, "HNBAP_LAC")]) (* src/hnbap/HNBAP_LAI.c *);
    ("HNBAP_NeighbourIdentity", [(0%nat, "HNBAP_HNB_RNL_Identity"); (1%nat, "HNBAP_CellIdentity")]) (* src/hnbap/HNBAP_NeighbourIdentity.c *);
    ("HNBAP_NeighbourCellIdentityList", [(0%nat, "HNBAP_NeighbourIdentity")]) (* src/hnbap/HNBAP_NeighbourCellIdentityList.c *);
    ("HNBAP_NeighbourInfoList", [(0%nat, "HNBAP_HNBConfigInfo")]) (* src/hnbap/HNBAP_NeighbourInfoList.c *);
    ("HNBAP_NeighbourInfoRequestItem", [(0%nat, "HNBAP_HNB_RNL_Identity"); (1%nat, "HNBAP_IE_Extensions")]) (* src/hnbap/HNBAP_NeighbourInfoRequestItem.c *);
    ("HNBAP_NeighbourInfoRequestList", [(0%nat, "HNBAP_NeighbourInfoRequestItem")]) (* src/hnbap/HNBAP_NeighbourInfoRequestList.c *);
    ("HNBAP_RAI", [(0%nat, "HNBAP_LAI"); (1%nat, "HNBAP_RAC")]) (* src/hnbap/HNBAP_RAI.c *);
    ("HNBAP_PTMSIRAI", [(0%nat, "HNBAP_PTMSI"); (1%nat, "HNBAP_RAI")]) (* src/hnbap/HNBAP_PTMSIRAI.c *);
    ("HNBAP_PrivateIE_ID", [(1%nat, "OBJECT_IDENTIFIER")]) (* src/hnbap/HNBAP_PrivateIE-ID.c *);
    ("HNBAP_PrivateMessage__privateMessage_ies_2", [(0%nat, "HNBAP_IE")]) (* src/hnbap/HNBAP_PrivateMessage.c *);
    ("HNBAP_TransportInfo__transportAssociation_3", [(0%nat, "HNBAP_GTP_TEI"); (1%nat, "HNBAP_BindingID")]) (* src/hnbap/HNBAP_TransportInfo.c *);
    ("HNBAP_TransportInfo", [(0%nat, "HNBAP_TransportLayerAddress"); (1%nat, "HNBAP_TransportInfo__transportAssociation_3"); (2%nat, "HNBAP_IE_Extensions")]) (* src/hnbap/HNBAP_TransportInfo.c *);
    ("HNBAP_RABListItem", [(0%nat, "HNBAP_RAB_ID"); (1%nat, "HNBAP_TransportInfo"); (2%nat, "HNBAP_TransportInfo"); (3%nat, "HNBAP_CN_DomainIndicator"); (4%nat, "HNBAP_IE_Extensions")]) (* src/hnbap/HNBAP_RABListItem.c *);
    ("HNBAP_RABList", [(0%nat, "HNBAP_RABListItem")]) (* src/hnbap/HNBAP_RABList.c *);
    ("HNBAP_RelocationComplete__relocationComplete_ies_2", [(0%nat, "HNBAP_IE")]) (* src/hnbap/HNBAP_RelocationComplete.c *);
    ("HNBAP_TMSILAI", [(1%nat, "HNBAP_LAI")]) (* src/hnbap/HNBAP_TMSILAI.c *);
    ("HNBAP_TNLUpdateFailure__tnlUpdateFailure_ies_2", [(0%nat, "HNBAP_IE")]) (* src/hnbap/HNBAP_TNLUpdateFailure.c *);
    ("HNBAP_TNLUpdateRequest__tnlUpdateRequest_ies_2", [(0%nat, "HNBAP_IE")]) (* src/hnbap/HNBAP_TNLUpdateRequest.c *);
    ("HNBAP_TNLUpdateResponse__tnlUpdateResponse_ies_2", [(0%nat, "HNBAP_IE")]) (* src/hnbap/HNBAP_TNLUpdateResponse.c *);
    ("HNBAP_Tunnel_Information", [(0%nat, "HNBAP_IP_Address"); (1%nat, "HNBAP_UDP_Port_Number"); (2%nat, "HNBAP_IE_Extensions")]) (* src/hnbap/HNBAP_Tunnel-Information.c *);
    ("HNBAP_U_RNTIQueryRequest__u_RNTIQueryRequest_ies_2", [(0%nat, "HNBAP_IE")]) (* src/hnbap/HNBAP_U-RNTIQueryRequest.c *);
    ("HNBAP_U_RNTIQueryResponse__u_RNTIQueryResponse_ies_2", [(0%nat, "HNBAP_IE")]) (* src/hnbap/HNBAP_U-RNTIQueryResponse.c *);
    ("HNBAP_UE_Capabilities", [(0%nat, "HNBAP_Access_stratum_release_indicator"); (1%nat, "HNBAP_CSG_Capability"); (2%nat, "HNBAP_IE_Extensions")]) (* src/hnbap/HNBAP_UE-Capabilities.c *);
    ("HNBAP_UE_Identity", [(0%nat, "HNBAP_IMSI"); (1%nat, "HNBAP_TMSILAI"); (2%nat, "HNBAP_PTMSIRAI"); (3%nat, "HNBAP_IMEI"); (4%nat, "HNBAP_ESN"); (5%nat, "HNBAP_IMSIDS41"); (6%nat, "HNBAP_IMSIESN"); (7%nat, "HNBAP_TMSIDS41")]) (* src/hnbap/HNBAP_UE-Identity.c *);
    ("HNBAP_UEDe_Register__ueDe_Register_ies_2", [(0%nat, "HNBAP_IE")]) (* src/hnbap/HNBAP_UEDe-Register.c *);
    ("HNBAP_UERegisterAccept__ueRegisterAccept_ies_2", [(0%nat, "HNBAP_IE")]) (* src/hnbap/HNBAP_UERegisterAccept.c *);
    ("HNBAP_UERegisterReject__ueRegisterReject_ies_2", [(0%nat, "HNBAP_IE")]) (* src/hnbap/HNBAP_UERegisterReject.c *);
    ("HNBAP_UERegisterRequest__ueRegisterRequest_ies_2", [(0%nat, "HNBAP_IE")]) (* src/hnbap/HNBAP_UERegisterRequest.c *);
    ("HNBAP_URAIdentityList", [(0%nat, "HNBAP_URAIdentity")]) (* src/hnbap/HNBAP_URAIdentityList.c *);
    ("SABP_IE", [(0%nat, "SABP_ProtocolIE_ID"); (1%nat, "SABP_Criticality"); (2%nat, "ANY")]) (* src/sabp/SABP_IE.c *);
    ("SABP_IE_Extensions", [(0%nat, "SABP_IE")]) (* src/sabp/SABP_IE-Extensions.c *);
    ("SABP_CriticalityDiagnostics_IE_List_Value", [(0%nat, "SABP_Criticality"); (1%nat, "SABP_ProtocolIE_ID"); (2%nat, "SABP_RepetitionNumber0"); (3%nat, "SABP_IE_Extensions")]) (* src/sabp/SABP_CriticalityDiagnostics-IE-List-Value.c *);
    ("SABP_CriticalityDiagnostics_IE_List", [(0%nat, "SABP_CriticalityDiagnostics_IE_List_Value")]) (* src/sabp/SABP_CriticalityDiagnostics-IE-List.c *);
    ("SABP_Criticality_Diagnostics", [(0%nat, "SABP_ProcedureCode"); (1%nat, "SABP_TriggeringMessage"); (2%nat, "SABP_Criticality"); (3%nat, "SABP_CriticalityDiagnostics_IE_List"); (4%nat, "SABP_IE_Extensions")]) (* src/sabp/SABP_Criticality-Diagnostics.c *);
    ("SABP_Error_Indication__error_Indication_ies_2", [(0%nat, "SABP_IE")]) (* src/sabp/SABP_Error-Indication.c *);
    ("SABP_Failure_List_Item", [(0%nat, "SABP_Service_Area_Identifier"); (1%nat, "SABP_Cause"); (2%nat, "SABP_IE_Extensions")]) (* src/sabp/SABP_Failure-List-Item.c *);
    ("SABP_Failure_List", [(0%nat, "SABP_Failure_List_Item")]) (* src/sabp/SABP_Failure-List.c *);
    ("SABP_Failure__failure_ies_2", [(0%nat, "SABP_IE")]) (* src/sabp/SABP_Failure.c *);
    ("SABP_InitiatingMessage", [(0%nat, "SABP_ProcedureCode"); (1%nat, "SABP_Criticality"); (2%nat, "ANY")]) (* src/sabp/SABP_InitiatingMessage.c *);
    ("SABP_Kill_Complete__kill_Complete_ies_2", [(0%nat, "SABP_IE")]) (* src/sabp/SABP_Kill-Complete.c *);
    ("SABP_Kill_Failure__kill_Failure_ies_2", [(0%nat, "SABP_IE")]) (* src/sabp/SABP_Kill-Failure.c *);
    ("SABP_Kill__kill_ies_2", [(0%nat, "SABP_IE")]) (* src/sabp/SABP_Kill.c *);
    ("SABP_Load_Query_Complete__load_Query_Complete_ies_2", [(0%nat, "SABP_IE")]) (* src/sabp/SABP_Load-Query-Complete.c *);
    ("SABP_Load_Query_Failure__load_Query_Failure_ies_2", [(0%nat, "SABP_IE")]) (* src/sabp/SABP_Load-Query-Failure.c *);
    ("SABP_Load_Query__load_Query_ies_2", [(0%nat, "SABP_IE")]) (* src/sabp/SABP_Load-Query.c *);
    ("SABP_Message_Status_Query_Complete__message_Status_Query_Complete_ies_2", [(0%nat, "SABP_IE")]) (* src/sabp/SABP_Message-Status-Query-Complete.c *);
    ("SABP_Message_Status_Query_Failure__message_Status_Query_Failure_ies_2", [(0%nat, "SABP_IE")]) (* src/sabp/SABP_Message-Status-Query-Failure.c *);
    ("SABP_Message_Status_Query__message_Status_Query_ies_2", [(0%nat, "SABP_IE")]) (* src/sabp/SABP_Message-Status-Query.c *);
    ("SABP_MessageStructure_Value", [(0%nat, "SABP_ProtocolIE_ID"); (1%nat, "SABP_RepetitionNumber1"); (2%nat, "SABP_IE_Extensions")]) (* src/sabp/SABP_MessageStructure-Value.c *);
    ("SABP_MessageStructure", [(0%nat, "SABP_MessageStructure_Value")]) (* src/sabp/SABP_MessageStructure.c *);
    ("SABP_Number_of_Broadcasts_Completed_List_Item", [(0%nat, "SABP_Service_Area_Identifier"); (2%nat, "SABP_Number_Of_Broadcasts_Completed_Info"); (3%nat, "SABP_IE_Extensions")]) (* src/sabp/SABP_Number-of-Broadcasts-Completed-List-Item.c *);
    ("SABP_Number_of_Broadcasts_Completed_List", [(0%nat, "SABP_Number_of_Broadcasts_Completed_List_Item")]) (* src/sabp/SABP_Number-of-Broadcasts-Completed-List.c *);
    ("SABP_Radio_Resource_Loading_List_Item", [(0%nat, "SABP_Service_Area_Identifier"); (1%nat, "SABP_Available_Bandwidth"); (2%nat, "SABP_IE_Extensions")]) (* src/sabp/SABP_Radio-Resource-Loading-List-Item.c *);
    ("SABP_Radio_Resource_Loading_List", [(0%nat, "SABP_Radio_Resource_Loading_List_Item")]) (* src/sabp/SABP_Radio-Resource-Loading-List.c *);
    ("SABP_Reset_Complete__reset_Complete_ies_2", [(0%nat, "SABP_IE")]) (* src/sabp/SABP_Reset-Complete.c *);
    ("SABP_Reset_Failure__reset_Failure_ies_2", [(0%nat, "SABP_IE")]) (* src/sabp/SABP_Reset-Failure.c *);
    ("SABP_Reset__reset_ies_2", [(0%nat, "SABP_IE")]) (* src/sabp/SABP_Reset.c *);
    ("SABP_Restart__restart_ies_2", [(0%nat, "SABP_IE")]) (* src/sabp/SABP_Restart.c *);
    ("SABP_SuccessfulOutcome", [(0%nat, "SABP_ProcedureCode"); (1%nat, "SABP_Criticality"); (2%nat, "ANY")]) (* src/sabp/SABP_SuccessfulOutcome.c *);
    ("SABP_UnsuccessfulOutcome", [(0%nat, "SABP_ProcedureCode"); (1%nat, "SABP_Criticality"); (2%nat, "ANY")]) (* src/sabp/SABP_UnsuccessfulOutcome.c *);
    ("SABP_SABP_PDU", [(0%nat, "SABP_InitiatingMessage"); (1%nat, "SABP_SuccessfulOutcome"); (2%nat, "SABP_UnsuccessfulOutcome")]) (* src/sabp/SABP_SABP-PDU.c *);
    ("SABP_Service_Areas_List", [(0%nat, "SABP_Service_Area_Identifier")]) (* src/sabp/SABP_Service-Areas-List.c *);
    ("SABP_Write_Replace_Complete__write_Replace_Complete_ies_2", [(0%nat, "SABP_IE")]) (* src/sabp/SABP_Write-Replace-Complete.c *);
    ("SABP_Write_Replace_Failure__write_Replace_Failure_ies_2", [(0%nat, "SABP_IE")]) (* src/sabp/SABP_Write-Replace-Failure.c *);
    ("SABP_Write_Replace__write_Replace_ies_2", [(0%nat, "SABP_IE")]) (* src/sabp/SABP_Write-Replace.c *) ].
