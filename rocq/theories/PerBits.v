(* Generated by a script: every asn_per_constraint_t of src/{ranap,rua,hnbap,sabp}/*.c
   with flag APC_CONSTRAINED: where it is, whether it constrains a size (else a
   value), APC_EXTENSIBLE, range_bits, effective_bits, lower_bound, upper_bound. *)
From Coq Require Import String List ZArith.
Import ListNotations.
Local Open Scope Z_scope.
Local Open Scope string_scope.
(* asn_per_constraint_t, e.g. src/ranap/RANAP_SAC.c:134-138 *)
Record per := Per { p_at : string; p_size : bool; p_ext : bool;
  p_range_bits : Z; p_effective_bits : Z; p_lower : Z; p_upper : Z }.
(* each entry names its file and symbol, e.g. src/ranap/RANAP_SAC.c:134-138 *)
Definition per_constraints : list per := [
  Per "src/ranap/RANAP_APN.c:asn_PER_type_RANAP_APN_constr_1" true false 8 8 1 255;
  Per "src/ranap/RANAP_AccuracyFulfilmentIndicator.c:asn_PER_type_RANAP_AccuracyFulfilmentIndicator_constr_1" false true 1 1 0 1;
  Per "src/ranap/RANAP_Alt-RAB-Parameter-ExtendedGuaranteedBitrateList.c:asn_PER_type_RANAP_Alt_RAB_Parameter_ExtendedGuaranteedBitrateList_constr_1" true false 1 1 1 2;
  Per "src/ranap/RANAP_Alt-RAB-Parameter-ExtendedGuaranteedBitrates.c:asn_PER_type_RANAP_Alt_RAB_Parameter_ExtendedGuaranteedBitrates_constr_1" true false 4 4 1 16;
  Per "src/ranap/RANAP_Alt-RAB-Parameter-ExtendedMaxBitrateList.c:asn_PER_type_RANAP_Alt_RAB_Parameter_ExtendedMaxBitrateList_constr_1" true false 1 1 1 2;
  Per "src/ranap/RANAP_Alt-RAB-Parameter-ExtendedMaxBitrates.c:asn_PER_type_RANAP_Alt_RAB_Parameter_ExtendedMaxBitrates_constr_1" true false 4 4 1 16;
  Per "src/ranap/RANAP_Alt-RAB-Parameter-GuaranteedBitrateList.c:asn_PER_type_RANAP_Alt_RAB_Parameter_GuaranteedBitrateList_constr_1" true false 1 1 1 2;
  Per "src/ranap/RANAP_Alt-RAB-Parameter-GuaranteedBitrateType.c:asn_PER_type_RANAP_Alt_RAB_Parameter_GuaranteedBitrateType_constr_1" false true 2 2 0 2;
  Per "src/ranap/RANAP_Alt-RAB-Parameter-GuaranteedBitrates.c:asn_PER_type_RANAP_Alt_RAB_Parameter_GuaranteedBitrates_constr_1" true false 4 4 1 16;
  Per "src/ranap/RANAP_Alt-RAB-Parameter-MaxBitrateList.c:asn_PER_type_RANAP_Alt_RAB_Parameter_MaxBitrateList_constr_1" true false 1 1 1 2;
  Per "src/ranap/RANAP_Alt-RAB-Parameter-MaxBitrateType.c:asn_PER_type_RANAP_Alt_RAB_Parameter_MaxBitrateType_constr_1" false true 2 2 0 2;
  Per "src/ranap/RANAP_Alt-RAB-Parameter-MaxBitrates.c:asn_PER_type_RANAP_Alt_RAB_Parameter_MaxBitrates_constr_1" true false 4 4 1 16;
  Per "src/ranap/RANAP_Alt-RAB-Parameter-SupportedGuaranteedBitrates.c:asn_PER_type_RANAP_Alt_RAB_Parameter_SupportedGuaranteedBitrates_constr_1" true false 4 4 1 16;
  Per "src/ranap/RANAP_Alt-RAB-Parameter-SupportedMaxBitrates.c:asn_PER_type_RANAP_Alt_RAB_Parameter_SupportedMaxBitrates_constr_1" true false 4 4 1 16;
  Per "src/ranap/RANAP_AlternativeRABConfigurationRequest.c:asn_PER_type_RANAP_AlternativeRABConfigurationRequest_constr_1" false true 0 0 0 0;
  Per "src/ranap/RANAP_AreaIdentity.c:asn_PER_type_RANAP_AreaIdentity_constr_1" false true 1 1 0 1;
  Per "src/ranap/RANAP_Ass-RAB-Parameter-ExtendedGuaranteedBitrateList.c:asn_PER_type_RANAP_Ass_RAB_Parameter_ExtendedGuaranteedBitrateList_constr_1" true false 1 1 1 2;
  Per "src/ranap/RANAP_Ass-RAB-Parameter-ExtendedMaxBitrateList.c:asn_PER_type_RANAP_Ass_RAB_Parameter_ExtendedMaxBitrateList_constr_1" true false 1 1 1 2;
  Per "src/ranap/RANAP_Ass-RAB-Parameter-GuaranteedBitrateList.c:asn_PER_type_RANAP_Ass_RAB_Parameter_GuaranteedBitrateList_constr_1" true false 1 1 1 2;
  Per "src/ranap/RANAP_Ass-RAB-Parameter-MaxBitrateList.c:asn_PER_type_RANAP_Ass_RAB_Parameter_MaxBitrateList_constr_1" true false 1 1 1 2;
  Per "src/ranap/RANAP_AuthorisedPLMNs.c:asn_PER_type_RANAP_AuthorisedPLMNs_constr_1" true false 5 5 1 32;
  Per "src/ranap/RANAP_AuthorisedSNAs.c:asn_PER_type_RANAP_AuthorisedSNAs_constr_1" true false 16 (-1) 1 65536;
  Per "src/ranap/RANAP_BindingID.c:asn_PER_type_RANAP_BindingID_constr_1" true false 0 0 4 4;
  Per "src/ranap/RANAP_BroadcastAssistanceDataDecipheringKeys.c:asn_PER_memb_cipheringKeyFlag_constr_2" true false 0 0 1 1;
  Per "src/ranap/RANAP_BroadcastAssistanceDataDecipheringKeys.c:asn_PER_memb_currentDecipheringKey_constr_3" true false 0 0 56 56;
  Per "src/ranap/RANAP_BroadcastAssistanceDataDecipheringKeys.c:asn_PER_memb_nextDecipheringKey_constr_4" true false 0 0 56 56;
  Per "src/ranap/RANAP_CI.c:asn_PER_type_RANAP_CI_constr_1" true false 0 0 2 2;
  Per "src/ranap/RANAP_CN-DeactivateTrace.c:asn_PER_type_cN_DeactivateTrace_ies_constr_2" true false 16 16 0 65535;
  Per "src/ranap/RANAP_CN-DeactivateTrace.c:asn_PER_memb_cN_DeactivateTrace_ies_constr_2" true false 16 16 0 65535;
  Per "src/ranap/RANAP_CN-DomainIndicator.c:asn_PER_type_RANAP_CN_DomainIndicator_constr_1" false false 1 1 0 1;
  Per "src/ranap/RANAP_CN-ID.c:asn_PER_type_RANAP_CN_ID_constr_1" false false 12 12 0 4095;
  Per "src/ranap/RANAP_CN-InvokeTrace.c:asn_PER_type_cN_InvokeTrace_ies_constr_2" true false 16 16 0 65535;
  Per "src/ranap/RANAP_CN-InvokeTrace.c:asn_PER_memb_cN_InvokeTrace_ies_constr_2" true false 16 16 0 65535;
  Per "src/ranap/RANAP_CSFB-Information.c:asn_PER_type_RANAP_CSFB_Information_constr_1" false true 1 1 0 1;
  Per "src/ranap/RANAP_CSG-Id-List.c:asn_PER_type_RANAP_CSG_Id_List_constr_1" true false 8 8 1 256;
  Per "src/ranap/RANAP_CSG-Id.c:asn_PER_type_RANAP_CSG_Id_constr_1" true false 0 0 27 27;
  Per "src/ranap/RANAP_CSG-Membership-Status.c:asn_PER_type_RANAP_CSG_Membership_Status_constr_1" false true 1 1 0 1;
  Per "src/ranap/RANAP_Cause.c:asn_PER_type_RANAP_Cause_constr_1" false true 3 3 0 5;
  Per "src/ranap/RANAP_CauseMisc.c:asn_PER_type_RANAP_CauseMisc_constr_1" false false 4 4 113 128;
  Per "src/ranap/RANAP_CauseNAS.c:asn_PER_type_RANAP_CauseNAS_constr_1" false false 4 4 81 96;
  Per "src/ranap/RANAP_CauseNon-Standard.c:asn_PER_type_RANAP_CauseNon_Standard_constr_1" false false 7 7 129 256;
  Per "src/ranap/RANAP_CauseProtocol.c:asn_PER_type_RANAP_CauseProtocol_constr_1" false false 4 4 97 112;
  Per "src/ranap/RANAP_CauseRadioNetwork.c:asn_PER_type_RANAP_CauseRadioNetwork_constr_1" false false 6 6 1 64;
  Per "src/ranap/RANAP_CauseRadioNetworkExtension.c:asn_PER_type_RANAP_CauseRadioNetworkExtension_constr_1" false false 8 8 257 512;
  Per "src/ranap/RANAP_CauseTransmissionNetwork.c:asn_PER_type_RANAP_CauseTransmissionNetwork_constr_1" false false 4 4 65 80;
  Per "src/ranap/RANAP_Cell-Access-Mode.c:asn_PER_type_RANAP_Cell_Access_Mode_constr_1" false true 0 0 0 0;
  Per "src/ranap/RANAP_Cell-Capacity-Class-Value.c:asn_PER_type_RANAP_Cell_Capacity_Class_Value_constr_1" false true 7 7 1 100;
  Per "src/ranap/RANAP_Cell-Id.c:asn_PER_type_RANAP_Cell_Id_constr_1" false false 28 (-1) 0 268435455;
  Per "src/ranap/RANAP_CellIdList.c:asn_PER_type_RANAP_CellIdList_constr_1" true false 5 5 1 32;
  Per "src/ranap/RANAP_CellType.c:asn_PER_type_RANAP_CellType_constr_1" false true 2 2 0 3;
  Per "src/ranap/RANAP_ClientType.c:asn_PER_type_RANAP_ClientType_constr_1" false true 3 3 0 7;
  Per "src/ranap/RANAP_CommonID.c:asn_PER_type_commonID_ies_constr_2" true false 16 16 0 65535;
  Per "src/ranap/RANAP_CommonID.c:asn_PER_memb_commonID_ies_constr_2" true false 16 16 0 65535;
  Per "src/ranap/RANAP_Correlation-ID.c:asn_PER_type_RANAP_Correlation_ID_constr_1" true false 0 0 4 4;
  Per "src/ranap/RANAP_Criticality.c:asn_PER_type_RANAP_Criticality_constr_1" false false 2 2 0 2;
  Per "src/ranap/RANAP_CriticalityDiagnostics-IE-List.c:asn_PER_type_RANAP_CriticalityDiagnostics_IE_List_constr_1" true false 8 8 1 256;
  Per "src/ranap/RANAP_D-RNTI.c:asn_PER_type_RANAP_D_RNTI_constr_1" false false 20 (-1) 0 1048575;
  Per "src/ranap/RANAP_DCH-ID.c:asn_PER_type_RANAP_DCH_ID_constr_1" false false 8 8 0 255;
  Per "src/ranap/RANAP_DL-GTP-PDU-SequenceNumber.c:asn_PER_type_RANAP_DL_GTP_PDU_SequenceNumber_constr_1" false false 16 16 0 65535;
  Per "src/ranap/RANAP_DL-N-PDU-SequenceNumber.c:asn_PER_type_RANAP_DL_N_PDU_SequenceNumber_constr_1" false false 16 16 0 65535;
  Per "src/ranap/RANAP_DRX-CycleLengthCoefficient.c:asn_PER_type_RANAP_DRX_CycleLengthCoefficient_constr_1" false false 2 2 6 9;
  Per "src/ranap/RANAP_DSCH-ID.c:asn_PER_type_RANAP_DSCH_ID_constr_1" false false 8 8 0 255;
  Per "src/ranap/RANAP_DataPDUType.c:asn_PER_type_RANAP_DataPDUType_constr_1" false true 1 1 0 1;
  Per "src/ranap/RANAP_DataVolumeList.c:asn_PER_type_RANAP_DataVolumeList_constr_1" true false 1 1 1 2;
  Per "src/ranap/RANAP_DataVolumeReference.c:asn_PER_type_RANAP_DataVolumeReference_constr_1" false false 8 8 0 255;
  Per "src/ranap/RANAP_DataVolumeReport.c:asn_PER_type_dataVolumeReport_ies_constr_2" true false 16 16 0 65535;
  Per "src/ranap/RANAP_DataVolumeReport.c:asn_PER_memb_dataVolumeReport_ies_constr_2" true false 16 16 0 65535;
  Per "src/ranap/RANAP_DataVolumeReportList.c:asn_PER_type_dataVolumeReportListe_ies_constr_2" true false 16 16 0 65535;
  Per "src/ranap/RANAP_DataVolumeReportList.c:asn_PER_memb_dataVolumeReportListe_ies_constr_2" true false 16 16 0 65535;
  Per "src/ranap/RANAP_DataVolumeReportRequest.c:asn_PER_type_dataVolumeReportRequest_ies_constr_2" true false 16 16 0 65535;
  Per "src/ranap/RANAP_DataVolumeReportRequest.c:asn_PER_memb_dataVolumeReportRequest_ies_constr_2" true false 16 16 0 65535;
  Per "src/ranap/RANAP_DataVolumeReportingIndication.c:asn_PER_type_RANAP_DataVolumeReportingIndication_constr_1" false false 1 1 0 1;
  Per "src/ranap/RANAP_DeliveryOfErroneousSDU.c:asn_PER_type_RANAP_DeliveryOfErroneousSDU_constr_1" false false 2 2 0 2;
  Per "src/ranap/RANAP_DeliveryOrder.c:asn_PER_type_RANAP_DeliveryOrder_constr_1" false false 1 1 0 1;
  Per "src/ranap/RANAP_DirectInformationTransfer.c:asn_PER_type_directInformationTransfer_ies_constr_2" true false 16 16 0 65535;
  Per "src/ranap/RANAP_DirectInformationTransfer.c:asn_PER_memb_directInformationTransfer_ies_constr_2" true false 16 16 0 65535;
  Per "src/ranap/RANAP_DirectReportingIndicator.c:asn_PER_type_RANAP_DirectReportingIndicator_constr_1" false true 1 1 0 1;
  Per "src/ranap/RANAP_DirectTransfer-IE-ContainerList.c:asn_PER_type_RANAP_DirectTransfer_IE_ContainerList_constr_1" true false 4 4 1 15;
  Per "src/ranap/RANAP_DirectTransfer.c:asn_PER_type_directTransfer_ies_constr_2" true false 16 16 0 65535;
  Per "src/ranap/RANAP_DirectTransfer.c:asn_PER_memb_directTransfer_ies_constr_2" true false 16 16 0 65535;
  Per "src/ranap/RANAP_E-DCH-MAC-d-Flow-ID.c:asn_PER_type_RANAP_E_DCH_MAC_d_Flow_ID_constr_1" false false 3 3 0 7;
  Per "src/ranap/RANAP_E-UTRAN-Service-Handover.c:asn_PER_type_RANAP_E_UTRAN_Service_Handover_constr_1" false true 0 0 0 0;
  Per "src/ranap/RANAP_EARFCN-Extended.c:asn_PER_type_RANAP_EARFCN_Extended_constr_1" false true 18 (-1) 65536 262143;
  Per "src/ranap/RANAP_ENB-ID.c:asn_PER_memb_macroENB_ID_constr_2" true false 0 0 20 20;
  Per "src/ranap/RANAP_ENB-ID.c:asn_PER_memb_homeENB_ID_constr_3" true false 0 0 28 28;
  Per "src/ranap/RANAP_ENB-ID.c:asn_PER_type_RANAP_ENB_ID_constr_1" false true 1 1 0 1;
  Per "src/ranap/RANAP_EUTRANFrequencies-Value.c:asn_PER_memb_earfcn_constr_2" false false 16 16 0 65535;
  Per "src/ranap/RANAP_EUTRANFrequencies.c:asn_PER_type_RANAP_EUTRANFrequencies_constr_1" true false 3 3 1 8;
  Per "src/ranap/RANAP_EncryptionAlgorithm.c:asn_PER_type_RANAP_EncryptionAlgorithm_constr_1" false false 4 4 0 15;
  Per "src/ranap/RANAP_EncryptionKey.c:asn_PER_type_RANAP_EncryptionKey_constr_1" true false 0 0 128 128;
  Per "src/ranap/RANAP_End-Of-CSFB.c:asn_PER_type_RANAP_End_Of_CSFB_constr_1" false true 0 0 0 0;
  Per "src/ranap/RANAP_EnhancedRelocationCompleteConfirm.c:asn_PER_type_enhancedRelocationCompleteConfirm_ies_constr_2" true false 16 16 0 65535;
  Per "src/ranap/RANAP_EnhancedRelocationCompleteConfirm.c:asn_PER_memb_enhancedRelocationCompleteConfirm_ies_constr_2" true false 16 16 0 65535;
  Per "src/ranap/RANAP_EnhancedRelocationCompleteFailure.c:asn_PER_type_enhancedRelocationCompleteFailure_ies_constr_2" true false 16 16 0 65535;
  Per "src/ranap/RANAP_EnhancedRelocationCompleteFailure.c:asn_PER_memb_enhancedRelocationCompleteFailure_ies_constr_2" true false 16 16 0 65535;
  Per "src/ranap/RANAP_EnhancedRelocationCompleteRequest.c:asn_PER_type_enhancedRelocationCompleteRequest_ies_constr_2" true false 16 16 0 65535;
  Per "src/ranap/RANAP_EnhancedRelocationCompleteRequest.c:asn_PER_memb_enhancedRelocationCompleteRequest_ies_constr_2" true false 16 16 0 65535;
  Per "src/ranap/RANAP_EnhancedRelocationCompleteResponse.c:asn_PER_type_enhancedRelocationCompleteResponse_ies_constr_2" true false 16 16 0 65535;
  Per "src/ranap/RANAP_EnhancedRelocationCompleteResponse.c:asn_PER_memb_enhancedRelocationCompleteResponse_ies_constr_2" true false 16 16 0 65535;
  Per "src/ranap/RANAP_EquipmentsToBeTraced.c:asn_PER_type_RANAP_EquipmentsToBeTraced_constr_1" false true 2 2 0 3;
  Per "src/ranap/RANAP_ErrorIndication.c:asn_PER_type_errorIndication_ies_constr_2" true false 16 16 0 65535;
  Per "src/ranap/RANAP_ErrorIndication.c:asn_PER_memb_errorIndication_ies_constr_2" true false 16 16 0 65535;
  Per "src/ranap/RANAP_Event.c:asn_PER_type_RANAP_Event_constr_1" false true 2 2 0 2;
  Per "src/ranap/RANAP_Event1F-Parameters.c:asn_PER_memb_threshold_constr_3" false false 9 9 (-120) 165;
  Per "src/ranap/RANAP_Event1I-Parameters.c:asn_PER_memb_threshold_constr_2" false false 7 7 (-120) (-25);
  Per "src/ranap/RANAP_ExtendedGuaranteedBitrate.c:asn_PER_type_RANAP_ExtendedGuaranteedBitrate_constr_1" false false 28 (-1) 16000001 256000000;
  Per "src/ranap/RANAP_ExtendedMaxBitrate.c:asn_PER_type_RANAP_ExtendedMaxBitrate_constr_1" false false 28 (-1) 16000001 256000000;
  Per "src/ranap/RANAP_ExtendedRNC-ID.c:asn_PER_type_RANAP_ExtendedRNC_ID_constr_1" false false 16 16 4096 65535;
  Per "src/ranap/RANAP_ForwardSRNS-Context.c:asn_PER_type_forwardSRNS_Context_ies_constr_2" true false 16 16 0 65535;
  Per "src/ranap/RANAP_ForwardSRNS-Context.c:asn_PER_memb_forwardSRNS_Context_ies_constr_2" true false 16 16 0 65535;
  Per "src/ranap/RANAP_ForwardingIndication.c:asn_PER_type_RANAP_ForwardingIndication_constr_1" false true 0 0 0 0;
  Per "src/ranap/RANAP_FrameSequenceNumber.c:asn_PER_type_RANAP_FrameSequenceNumber_constr_1" false false 4 4 0 15;
  Per "src/ranap/RANAP_FrequenceLayerConvergenceFlag.c:asn_PER_type_RANAP_FrequenceLayerConvergenceFlag_constr_1" false true 0 0 0 0;
  Per "src/ranap/RANAP_GA-AltitudeAndDirection.c:asn_PER_type_directionOfAltitude_constr_2" false false 1 1 0 1;
  Per "src/ranap/RANAP_GA-AltitudeAndDirection.c:asn_PER_memb_altitude_constr_5" false false 15 15 0 32767;
  Per "src/ranap/RANAP_GA-EllipsoidArc.c:asn_PER_memb_innerRadius_constr_3" false false 16 16 0 65535;
  Per "src/ranap/RANAP_GA-EllipsoidArc.c:asn_PER_memb_uncertaintyRadius_constr_4" false false 7 7 0 127;
  Per "src/ranap/RANAP_GA-EllipsoidArc.c:asn_PER_memb_offsetAngle_constr_5" false false 8 8 0 179;
  Per "src/ranap/RANAP_GA-EllipsoidArc.c:asn_PER_memb_includedAngle_constr_6" false false 8 8 0 179;
  Per "src/ranap/RANAP_GA-EllipsoidArc.c:asn_PER_memb_confidence_constr_7" false false 7 7 0 127;
  Per "src/ranap/RANAP_GA-PointWithAltitudeAndUncertaintyEllipsoid.c:asn_PER_memb_uncertaintyAltitude_constr_5" false false 7 7 0 127;
  Per "src/ranap/RANAP_GA-PointWithAltitudeAndUncertaintyEllipsoid.c:asn_PER_memb_confidence_constr_6" false false 7 7 0 127;
  Per "src/ranap/RANAP_GA-PointWithUnCertainty.c:asn_PER_memb_uncertaintyCode_constr_4" false false 7 7 0 127;
  Per "src/ranap/RANAP_GA-PointWithUnCertaintyEllipse.c:asn_PER_memb_confidence_constr_4" false false 7 7 0 127;
  Per "src/ranap/RANAP_GA-Polygon.c:asn_PER_type_RANAP_GA_Polygon_constr_1" true false 4 4 1 15;
  Per "src/ranap/RANAP_GA-UncertaintyEllipse.c:asn_PER_memb_uncertaintySemi_major_constr_2" false false 7 7 0 127;
  Per "src/ranap/RANAP_GA-UncertaintyEllipse.c:asn_PER_memb_uncertaintySemi_minor_constr_3" false false 7 7 0 127;
  Per "src/ranap/RANAP_GA-UncertaintyEllipse.c:asn_PER_memb_orientationOfMajorAxis_constr_4" false false 8 8 0 179;
  Per "src/ranap/RANAP_GANSS-PositioningDataSet.c:asn_PER_type_RANAP_GANSS_PositioningDataSet_constr_1" true false 4 4 1 9;
  Per "src/ranap/RANAP_GANSS-PositioningMethodAndUsage.c:asn_PER_type_RANAP_GANSS_PositioningMethodAndUsage_constr_1" true false 0 0 1 1;
  Per "src/ranap/RANAP_GERAN-Iumode-RAB-Failed-RABAssgntResponse-List.c:asn_PER_type_geraN_Iumode_RAB_Failed_RABAssgntResponse_List_ies_constr_2" true false 16 16 0 65535;
  Per "src/ranap/RANAP_GERAN-Iumode-RAB-Failed-RABAssgntResponse-List.c:asn_PER_memb_geraN_Iumode_RAB_Failed_RABAssgntResponse_List_ies_constr_2" true false 16 16 0 65535;
  Per "src/ranap/RANAP_GTP-TEI.c:asn_PER_type_RANAP_GTP_TEI_constr_1" true false 0 0 4 4;
  Per "src/ranap/RANAP_GeographicalArea.c:asn_PER_type_RANAP_GeographicalArea_constr_1" false true 2 2 0 2;
  Per "src/ranap/RANAP_GeographicalCoordinates.c:asn_PER_type_latitudeSign_constr_2" false false 1 1 0 1;
  Per "src/ranap/RANAP_GeographicalCoordinates.c:asn_PER_memb_latitude_constr_5" false false 23 (-1) 0 8388607;
  Per "src/ranap/RANAP_GeographicalCoordinates.c:asn_PER_memb_longitude_constr_6" false false 24 (-1) (-8388608) 8388607;
  Per "src/ranap/RANAP_GuaranteedBitrate.c:asn_PER_type_RANAP_GuaranteedBitrate_constr_1" false false 24 (-1) 0 16000000;
  Per "src/ranap/RANAP_HS-DSCH-MAC-d-Flow-ID.c:asn_PER_type_RANAP_HS_DSCH_MAC_d_Flow_ID_constr_1" false false 3 3 0 7;
  Per "src/ranap/RANAP_HigherBitratesThan16MbpsFlag.c:asn_PER_type_RANAP_HigherBitratesThan16MbpsFlag_constr_1" false true 1 1 0 1;
  Per "src/ranap/RANAP_HorizontalSpeedAndBearing.c:asn_PER_memb_bearing_constr_2" false false 9 9 0 359;
  Per "src/ranap/RANAP_HorizontalSpeedAndBearing.c:asn_PER_memb_horizontalSpeed_constr_3" false false 11 11 0 2047;
  Per "src/ranap/RANAP_HorizontalVelocityWithUncertainty.c:asn_PER_memb_uncertaintySpeed_constr_3" false false 8 8 0 255;
  Per "src/ranap/RANAP_HorizontalWithVerticalVelocityAndUncertainty.c:asn_PER_memb_horizontalUncertaintySpeed_constr_4" false false 8 8 0 255;
  Per "src/ranap/RANAP_HorizontalWithVerticalVelocityAndUncertainty.c:asn_PER_memb_verticalUncertaintySpeed_constr_5" false false 8 8 0 255;
  Per "src/ranap/RANAP_IE-Extensions.c:asn_PER_type_RANAP_IE_Extensions_constr_1" true false 16 16 1 65535;
  Per "src/ranap/RANAP_IMEI.c:asn_PER_type_RANAP_IMEI_constr_1" true false 0 0 8 8;
  Per "src/ranap/RANAP_IMEIGroup.c:asn_PER_memb_iMEIMask_constr_3" true false 0 0 7 7;
  Per "src/ranap/RANAP_IMEIList.c:asn_PER_type_RANAP_IMEIList_constr_1" true false 6 6 1 64;
  Per "src/ranap/RANAP_IMEISV.c:asn_PER_type_RANAP_IMEISV_constr_1" true false 0 0 8 8;
  Per "src/ranap/RANAP_IMEISVGroup.c:asn_PER_memb_iMEISVMask_constr_3" true false 0 0 7 7;
  Per "src/ranap/RANAP_IMEISVList.c:asn_PER_type_RANAP_IMEISVList_constr_1" true false 6 6 1 64;
  Per "src/ranap/RANAP_IMSI.c:asn_PER_type_RANAP_IMSI_constr_1" true false 3 3 3 8;
  Per "src/ranap/RANAP_IPMulticastAddress.c:asn_PER_type_RANAP_IPMulticastAddress_constr_1" true false 4 4 4 16;
  Per "src/ranap/RANAP_IRAT-Measurement-Configuration.c:asn_PER_memb_rSRP_constr_2" false false 7 7 0 97;
  Per "src/ranap/RANAP_IRAT-Measurement-Configuration.c:asn_PER_memb_rSRQ_constr_3" false false 6 6 0 34;
  Per "src/ranap/RANAP_IRATmeasurementParameters.c:asn_PER_memb_measurementDuration_constr_2" false false 7 7 1 100;
  Per "src/ranap/RANAP_IncludeVelocity.c:asn_PER_type_RANAP_IncludeVelocity_constr_1" false false 0 0 0 0;
  Per "src/ranap/RANAP_InformationExchangeID.c:asn_PER_type_RANAP_InformationExchangeID_constr_1" false false 20 (-1) 0 1048575;
  Per "src/ranap/RANAP_InformationExchangeType.c:asn_PER_type_RANAP_InformationExchangeType_constr_1" false true 1 1 0 1;
  Per "src/ranap/RANAP_InformationRequestType.c:asn_PER_type_RANAP_InformationRequestType_constr_1" false true 1 1 0 1;
  Per "src/ranap/RANAP_InformationRequested.c:asn_PER_type_RANAP_InformationRequested_constr_1" false true 1 1 0 1;
  Per "src/ranap/RANAP_InformationTransferConfirmation.c:asn_PER_type_informationTransferConfirmation_ies_constr_2" true false 16 16 0 65535;
  Per "src/ranap/RANAP_InformationTransferConfirmation.c:asn_PER_memb_informationTransferConfirmation_ies_constr_2" true false 16 16 0 65535;
  Per "src/ranap/RANAP_InformationTransferFailure.c:asn_PER_type_informationTransferFailure_ies_constr_2" true false 16 16 0 65535;
  Per "src/ranap/RANAP_InformationTransferFailure.c:asn_PER_memb_informationTransferFailure_ies_constr_2" true false 16 16 0 65535;
  Per "src/ranap/RANAP_InformationTransferID.c:asn_PER_type_RANAP_InformationTransferID_constr_1" false false 20 (-1) 0 1048575;
  Per "src/ranap/RANAP_InformationTransferIndication.c:asn_PER_type_informationTransferIndication_ies_constr_2" true false 16 16 0 65535;
  Per "src/ranap/RANAP_InformationTransferIndication.c:asn_PER_memb_informationTransferIndication_ies_constr_2" true false 16 16 0 65535;
  Per "src/ranap/RANAP_InformationTransferType.c:asn_PER_type_RANAP_InformationTransferType_constr_1" false true 0 0 0 0;
  Per "src/ranap/RANAP_InitialUE-Message.c:asn_PER_type_initialUE_Message_ies_constr_2" true false 16 16 0 65535;
  Per "src/ranap/RANAP_InitialUE-Message.c:asn_PER_memb_initialUE_Message_ies_constr_2" true false 16 16 0 65535;
  Per "src/ranap/RANAP_IntegrityProtectionAlgorithm.c:asn_PER_type_RANAP_IntegrityProtectionAlgorithm_constr_1" false false 4 4 0 15;
  Per "src/ranap/RANAP_IntegrityProtectionKey.c:asn_PER_type_RANAP_IntegrityProtectionKey_constr_1" true false 0 0 128 128;
  Per "src/ranap/RANAP_InterSystemInformationTransferType.c:asn_PER_type_RANAP_InterSystemInformationTransferType_constr_1" false true 0 0 0 0;
  Per "src/ranap/RANAP_InterfacesToTraceItem.c:asn_PER_type_interface_constr_2" false true 3 3 0 4;
  Per "src/ranap/RANAP_Iu-ReleaseCommand.c:asn_PER_type_iu_ReleaseCommand_ies_constr_2" true false 16 16 0 65535;
  Per "src/ranap/RANAP_Iu-ReleaseCommand.c:asn_PER_memb_iu_ReleaseCommand_ies_constr_2" true false 16 16 0 65535;
  Per "src/ranap/RANAP_Iu-ReleaseComplete.c:asn_PER_type_iu_ReleaseComplete_ies_constr_2" true false 16 16 0 65535;
  Per "src/ranap/RANAP_Iu-ReleaseComplete.c:asn_PER_memb_iu_ReleaseComplete_ies_constr_2" true false 16 16 0 65535;
  Per "src/ranap/RANAP_Iu-ReleaseRequest.c:asn_PER_type_iu_ReleaseRequest_ies_constr_2" true false 16 16 0 65535;
  Per "src/ranap/RANAP_Iu-ReleaseRequest.c:asn_PER_memb_iu_ReleaseRequest_ies_constr_2" true false 16 16 0 65535;
  Per "src/ranap/RANAP_IuSigConId-IE-ContainerList.c:asn_PER_type_RANAP_IuSigConId_IE_ContainerList_constr_1" true false 8 8 1 250;
  Per "src/ranap/RANAP_IuSignallingConnectionIdentifier.c:asn_PER_type_RANAP_IuSignallingConnectionIdentifier_constr_1" true false 0 0 24 24;
  Per "src/ranap/RANAP_IuTransportAssociation.c:asn_PER_type_RANAP_IuTransportAssociation_constr_1" false true 1 1 0 1;
  Per "src/ranap/RANAP_JoinedMBMSBearerService-IEs.c:asn_PER_type_RANAP_JoinedMBMSBearerService_IEs_constr_1" true false 7 7 1 128;
  Per "src/ranap/RANAP_KeyStatus.c:asn_PER_type_RANAP_KeyStatus_constr_1" false true 1 1 0 1;
  Per "src/ranap/RANAP_LA-LIST.c:asn_PER_type_RANAP_LA_LIST_constr_1" true false 16 (-1) 1 65536;
  Per "src/ranap/RANAP_LAC.c:asn_PER_type_RANAP_LAC_constr_1" true false 0 0 2 2;
  Per "src/ranap/RANAP_LAI-List.c:asn_PER_type_RANAP_LAI_List_constr_1" true false 3 3 1 8;
  Per "src/ranap/RANAP_LAListofIdleModeUEs.c:asn_PER_type_RANAP_LAListofIdleModeUEs_constr_1" true false 16 (-1) 1 65536;
  Per "src/ranap/RANAP_LHN-ID.c:asn_PER_type_RANAP_LHN_ID_constr_1" true false 8 8 32 256;
  Per "src/ranap/RANAP_LastKnownServiceArea.c:asn_PER_memb_ageOfSAI_constr_3" false false 15 15 0 32767;
  Per "src/ranap/RANAP_LeftMBMSBearerService-IEs.c:asn_PER_type_RANAP_LeftMBMSBearerService_IEs_constr_1" true false 7 7 1 128;
  Per "src/ranap/RANAP_Links-to-log.c:asn_PER_type_RANAP_Links_to_log_constr_1" false true 2 2 0 2;
  Per "src/ranap/RANAP_ListOF-SNAs.c:asn_PER_type_RANAP_ListOF_SNAs_constr_1" true false 16 (-1) 1 65536;
  Per "src/ranap/RANAP_ListOfInterfacesToTrace.c:asn_PER_type_RANAP_ListOfInterfacesToTrace_constr_1" true false 4 4 1 16;
  Per "src/ranap/RANAP_LoadValue.c:asn_PER_type_RANAP_LoadValue_constr_1" false false 7 7 0 100;
  Per "src/ranap/RANAP_LocationRelatedDataFailure.c:asn_PER_type_locationRelatedDataFailure_ies_constr_2" true false 16 16 0 65535;
  Per "src/ranap/RANAP_LocationRelatedDataFailure.c:asn_PER_memb_locationRelatedDataFailure_ies_constr_2" true false 16 16 0 65535;
  Per "src/ranap/RANAP_LocationRelatedDataRequest.c:asn_PER_type_locationRelatedDataRequest_ies_constr_2" true false 16 16 0 65535;
  Per "src/ranap/RANAP_LocationRelatedDataRequest.c:asn_PER_memb_locationRelatedDataRequest_ies_constr_2" true false 16 16 0 65535;
  Per "src/ranap/RANAP_LocationRelatedDataRequestTypeSpecificToGERANIuMode.c:asn_PER_type_RANAP_LocationRelatedDataRequestTypeSpecificToGERANIuMode_constr_1" false true 2 2 0 2;
  Per "src/ranap/RANAP_LocationRelatedDataResponse.c:asn_PER_type_locationRelatedDataResponse_ies_constr_2" true false 16 16 0 65535;
  Per "src/ranap/RANAP_LocationRelatedDataResponse.c:asn_PER_memb_locationRelatedDataResponse_ies_constr_2" true false 16 16 0 65535;
  Per "src/ranap/RANAP_LocationReport.c:asn_PER_type_locationReport_ies_constr_2" true false 16 16 0 65535;
  Per "src/ranap/RANAP_LocationReport.c:asn_PER_memb_locationReport_ies_constr_2" true false 16 16 0 65535;
  Per "src/ranap/RANAP_LocationReportingControl.c:asn_PER_type_locationReportingControl_ies_constr_2" true false 16 16 0 65535;
  Per "src/ranap/RANAP_LocationReportingControl.c:asn_PER_memb_locationReportingControl_ies_constr_2" true false 16 16 0 65535;
  Per "src/ranap/RANAP_LoggingDuration.c:asn_PER_type_RANAP_LoggingDuration_constr_1" false true 3 3 0 5;
  Per "src/ranap/RANAP_LoggingInterval.c:asn_PER_type_RANAP_LoggingInterval_constr_1" false true 3 3 0 7;
  Per "src/ranap/RANAP_M1Report.c:asn_PER_type_RANAP_M1Report_constr_1" false true 1 1 0 1;
  Per "src/ranap/RANAP_M2Report.c:asn_PER_type_RANAP_M2Report_constr_1" false true 1 1 0 1;
  Per "src/ranap/RANAP_M4-Period.c:asn_PER_type_RANAP_M4_Period_constr_1" false true 3 3 0 7;
  Per "src/ranap/RANAP_M4-Threshold.c:asn_PER_type_RANAP_M4_Threshold_constr_1" false false 5 5 0 31;
  Per "src/ranap/RANAP_M4Report.c:asn_PER_type_RANAP_M4Report_constr_1" false true 1 1 0 1;
  Per "src/ranap/RANAP_M5-Period.c:asn_PER_type_RANAP_M5_Period_constr_1" false true 3 3 0 7;
  Per "src/ranap/RANAP_M5Report.c:asn_PER_type_RANAP_M5Report_constr_1" false true 1 1 0 1;
  Per "src/ranap/RANAP_M6-Period.c:asn_PER_type_RANAP_M6_Period_constr_1" false true 4 4 0 12;
  Per "src/ranap/RANAP_M7-Period.c:asn_PER_type_RANAP_M7_Period_constr_1" false true 4 4 0 12;
  Per "src/ranap/RANAP_MBMS-PTP-RAB-ID.c:asn_PER_type_RANAP_MBMS_PTP_RAB_ID_constr_1" true false 0 0 8 8;
  Per "src/ranap/RANAP_MBMSBearerServiceType.c:asn_PER_type_RANAP_MBMSBearerServiceType_constr_1" false true 1 1 0 1;
  Per "src/ranap/RANAP_MBMSCNDe-Registration.c:asn_PER_type_RANAP_MBMSCNDe_Registration_constr_1" false true 1 1 0 1;
  Per "src/ranap/RANAP_MBMSCNDe-RegistrationRequest.c:asn_PER_type_mbmscnDe_RegistrationRequest_ies_constr_2" true false 16 16 0 65535;
  Per "src/ranap/RANAP_MBMSCNDe-RegistrationRequest.c:asn_PER_memb_mbmscnDe_RegistrationRequest_ies_constr_2" true false 16 16 0 65535;
  Per "src/ranap/RANAP_MBMSCNDe-RegistrationResponse.c:asn_PER_type_mbmscnDe_RegistrationResponse_ies_constr_2" true false 16 16 0 65535;
  Per "src/ranap/RANAP_MBMSCNDe-RegistrationResponse.c:asn_PER_memb_mbmscnDe_RegistrationResponse_ies_constr_2" true false 16 16 0 65535;
  Per "src/ranap/RANAP_MBMSCountingInformation.c:asn_PER_type_RANAP_MBMSCountingInformation_constr_1" false true 1 1 0 1;
  Per "src/ranap/RANAP_MBMSHCIndicator.c:asn_PER_type_RANAP_MBMSHCIndicator_constr_1" false true 1 1 0 1;
  Per "src/ranap/RANAP_MBMSIPMulticastAddressandAPNRequest.c:asn_PER_type_RANAP_MBMSIPMulticastAddressandAPNRequest_constr_1" true false 9 9 1 512;
  Per "src/ranap/RANAP_MBMSLinkingInformation.c:asn_PER_type_RANAP_MBMSLinkingInformation_constr_1" false true 0 0 0 0;
  Per "src/ranap/RANAP_MBMSRABEstablishmentIndication.c:asn_PER_type_mbmsrabEstablishmentIndication_ies_constr_2" true false 16 16 0 65535;
  Per "src/ranap/RANAP_MBMSRABEstablishmentIndication.c:asn_PER_memb_mbmsrabEstablishmentIndication_ies_constr_2" true false 16 16 0 65535;
  Per "src/ranap/RANAP_MBMSRABRelease.c:asn_PER_type_mbmsrabRelease_ies_constr_2" true false 16 16 0 65535;
  Per "src/ranap/RANAP_MBMSRABRelease.c:asn_PER_memb_mbmsrabRelease_ies_constr_2" true false 16 16 0 65535;
  Per "src/ranap/RANAP_MBMSRABReleaseFailure.c:asn_PER_type_mbmsrabReleaseFailure_ies_constr_2" true false 16 16 0 65535;
  Per "src/ranap/RANAP_MBMSRABReleaseFailure.c:asn_PER_memb_mbmsrabReleaseFailure_ies_constr_2" true false 16 16 0 65535;
  Per "src/ranap/RANAP_MBMSRABReleaseRequest.c:asn_PER_type_mbmsrabReleaseRequest_ies_constr_2" true false 16 16 0 65535;
  Per "src/ranap/RANAP_MBMSRABReleaseRequest.c:asn_PER_memb_mbmsrabReleaseRequest_ies_constr_2" true false 16 16 0 65535;
  Per "src/ranap/RANAP_MBMSRegistrationFailure.c:asn_PER_type_mbmsRegistrationFailure_ies_constr_2" true false 16 16 0 65535;
  Per "src/ranap/RANAP_MBMSRegistrationFailure.c:asn_PER_memb_mbmsRegistrationFailure_ies_constr_2" true false 16 16 0 65535;
  Per "src/ranap/RANAP_MBMSRegistrationRequest.c:asn_PER_type_mbmsRegistrationRequest_ies_constr_2" true false 16 16 0 65535;
  Per "src/ranap/RANAP_MBMSRegistrationRequest.c:asn_PER_memb_mbmsRegistrationRequest_ies_constr_2" true false 16 16 0 65535;
  Per "src/ranap/RANAP_MBMSRegistrationRequestType.c:asn_PER_type_RANAP_MBMSRegistrationRequestType_constr_1" false true 1 1 0 1;
  Per "src/ranap/RANAP_MBMSRegistrationResponse.c:asn_PER_type_mbmsRegistrationResponse_ies_constr_2" true false 16 16 0 65535;
  Per "src/ranap/RANAP_MBMSRegistrationResponse.c:asn_PER_memb_mbmsRegistrationResponse_ies_constr_2" true false 16 16 0 65535;
  Per "src/ranap/RANAP_MBMSSessionDuration.c:asn_PER_type_RANAP_MBMSSessionDuration_constr_1" true false 0 0 3 3;
  Per "src/ranap/RANAP_MBMSSessionIdentity.c:asn_PER_type_RANAP_MBMSSessionIdentity_constr_1" true false 0 0 1 1;
  Per "src/ranap/RANAP_MBMSSessionRepetitionNumber.c:asn_PER_type_RANAP_MBMSSessionRepetitionNumber_constr_1" true false 0 0 1 1;
  Per "src/ranap/RANAP_MBMSSessionStart.c:asn_PER_type_mbmsSessionStart_ies_constr_2" true false 16 16 0 65535;
  Per "src/ranap/RANAP_MBMSSessionStart.c:asn_PER_memb_mbmsSessionStart_ies_constr_2" true false 16 16 0 65535;
  Per "src/ranap/RANAP_MBMSSessionStartFailure.c:asn_PER_type_mbmsSessionStartFailure_ies_constr_2" true false 16 16 0 65535;
  Per "src/ranap/RANAP_MBMSSessionStartFailure.c:asn_PER_memb_mbmsSessionStartFailure_ies_constr_2" true false 16 16 0 65535;
  Per "src/ranap/RANAP_MBMSSessionStartResponse.c:asn_PER_type_mbmsSessionStartResponse_ies_constr_2" true false 16 16 0 65535;
  Per "src/ranap/RANAP_MBMSSessionStartResponse.c:asn_PER_memb_mbmsSessionStartResponse_ies_constr_2" true false 16 16 0 65535;
  Per "src/ranap/RANAP_MBMSSessionStop.c:asn_PER_type_mbmsSessionStop_ies_constr_2" true false 16 16 0 65535;
  Per "src/ranap/RANAP_MBMSSessionStop.c:asn_PER_memb_mbmsSessionStop_ies_constr_2" true false 16 16 0 65535;
  Per "src/ranap/RANAP_MBMSSessionStopResponse.c:asn_PER_type_mbmsSessionStopResponse_ies_constr_2" true false 16 16 0 65535;
  Per "src/ranap/RANAP_MBMSSessionStopResponse.c:asn_PER_memb_mbmsSessionStopResponse_ies_constr_2" true false 16 16 0 65535;
  Per "src/ranap/RANAP_MBMSSessionUpdate.c:asn_PER_type_mbmsSessionUpdate_ies_constr_2" true false 16 16 0 65535;
  Per "src/ranap/RANAP_MBMSSessionUpdate.c:asn_PER_memb_mbmsSessionUpdate_ies_constr_2" true false 16 16 0 65535;
  Per "src/ranap/RANAP_MBMSSessionUpdateFailure.c:asn_PER_type_mbmsSessionUpdateFailure_ies_constr_2" true false 16 16 0 65535;
  Per "src/ranap/RANAP_MBMSSessionUpdateFailure.c:asn_PER_memb_mbmsSessionUpdateFailure_ies_constr_2" true false 16 16 0 65535;
  Per "src/ranap/RANAP_MBMSSessionUpdateResponse.c:asn_PER_type_mbmsSessionUpdateResponse_ies_constr_2" true false 16 16 0 65535;
  Per "src/ranap/RANAP_MBMSSessionUpdateResponse.c:asn_PER_memb_mbmsSessionUpdateResponse_ies_constr_2" true false 16 16 0 65535;
  Per "src/ranap/RANAP_MBMSUELinkingRequest.c:asn_PER_type_mbmsueLinkingRequest_ies_constr_2" true false 16 16 0 65535;
  Per "src/ranap/RANAP_MBMSUELinkingRequest.c:asn_PER_memb_mbmsueLinkingRequest_ies_constr_2" true false 16 16 0 65535;
  Per "src/ranap/RANAP_MBMSUELinkingResponse.c:asn_PER_type_mbmsueLinkingResponse_ies_constr_2" true false 16 16 0 65535;
  Per "src/ranap/RANAP_MBMSUELinkingResponse.c:asn_PER_memb_mbmsueLinkingResponse_ies_constr_2" true false 16 16 0 65535;
  Per "src/ranap/RANAP_MDT-Activation.c:asn_PER_type_RANAP_MDT_Activation_constr_1" false true 2 2 0 2;
  Per "src/ranap/RANAP_MDT-PLMN-List.c:asn_PER_type_RANAP_MDT_PLMN_List_constr_1" true false 4 4 1 16;
  Per "src/ranap/RANAP_MDTAreaScope.c:asn_PER_type_RANAP_MDTAreaScope_constr_1" false true 2 2 0 3;
  Per "src/ranap/RANAP_MDTMode.c:asn_PER_type_RANAP_MDTMode_constr_1" false true 1 1 0 1;
  Per "src/ranap/RANAP_MSISDN.c:asn_PER_type_RANAP_MSISDN_constr_1" true false 4 4 1 9;
  Per "src/ranap/RANAP_Management-Based-MDT-Allowed.c:asn_PER_type_RANAP_Management_Based_MDT_Allowed_constr_1" false true 0 0 0 0;
  Per "src/ranap/RANAP_MaxBitrate.c:asn_PER_type_RANAP_MaxBitrate_constr_1" false false 24 (-1) 1 16000000;
  Per "src/ranap/RANAP_MaxSDU-Size.c:asn_PER_type_RANAP_MaxSDU_Size_constr_1" false false 16 16 0 32768;
  Per "src/ranap/RANAP_MeasBand.c:asn_PER_type_RANAP_MeasBand_constr_1" false false 3 3 0 5;
  Per "src/ranap/RANAP_MeasurementQuantity.c:asn_PER_type_RANAP_MeasurementQuantity_constr_1" false true 2 2 0 2;
  Per "src/ranap/RANAP_MeasurementsToActivate.c:asn_PER_type_RANAP_MeasurementsToActivate_constr_1" true false 0 0 8 8;
  Per "src/ranap/RANAP_MessageStructure.c:asn_PER_type_RANAP_MessageStructure_constr_1" true false 8 8 1 256;
  Per "src/ranap/RANAP_NAS-SequenceNumber.c:asn_PER_type_RANAP_NAS_SequenceNumber_constr_1" true false 0 0 2 2;
  Per "src/ranap/RANAP_NAS-SynchronisationIndicator.c:asn_PER_type_RANAP_NAS_SynchronisationIndicator_constr_1" true false 0 0 4 4;
  Per "src/ranap/RANAP_NRTLoadInformationValue.c:asn_PER_type_RANAP_NRTLoadInformationValue_constr_1" false false 2 2 0 3;
  Per "src/ranap/RANAP_NewRAListofIdleModeUEs.c:asn_PER_type_RANAP_NewRAListofIdleModeUEs_constr_1" true false 16 (-1) 1 65536;
  Per "src/ranap/RANAP_NonSearchingIndication.c:asn_PER_type_RANAP_NonSearchingIndication_constr_1" false false 1 1 0 1;
  Per "src/ranap/RANAP_NumberOfIuInstances.c:asn_PER_type_RANAP_NumberOfIuInstances_constr_1" false false 1 1 1 2;
  Per "src/ranap/RANAP_NumberOfSteps.c:asn_PER_type_RANAP_NumberOfSteps_constr_1" false false 4 4 1 16;
  Per "src/ranap/RANAP_OMC-ID.c:asn_PER_type_RANAP_OMC_ID_constr_1" true false 5 5 3 22;
  Per "src/ranap/RANAP_Offload-RAB-Parameters-APN.c:asn_PER_type_RANAP_Offload_RAB_Parameters_APN_constr_1" true false 8 8 1 255;
  Per "src/ranap/RANAP_Offload-RAB-Parameters-ChargingCharacteristics.c:asn_PER_type_RANAP_Offload_RAB_Parameters_ChargingCharacteristics_constr_1" true false 0 0 2 2;
  Per "src/ranap/RANAP_Out-Of-UTRAN.c:asn_PER_type_RANAP_Out_Of_UTRAN_constr_1" false true 0 0 0 0;
  Per "src/ranap/RANAP_Overload.c:asn_PER_type_overload_ies_constr_2" true false 16 16 0 65535;
  Per "src/ranap/RANAP_Overload.c:asn_PER_memb_overload_ies_constr_2" true false 16 16 0 65535;
  Per "src/ranap/RANAP_P-TMSI.c:asn_PER_type_RANAP_P_TMSI_constr_1" true false 0 0 4 4;
  Per "src/ranap/RANAP_PDP-Type-extension.c:asn_PER_type_RANAP_PDP_Type_extension_constr_1" false true 0 0 0 0;
  Per "src/ranap/RANAP_PDP-Type.c:asn_PER_type_RANAP_PDP_Type_constr_1" false true 3 3 0 4;
  Per "src/ranap/RANAP_PDP-TypeInformation-extension.c:asn_PER_type_RANAP_PDP_TypeInformation_extension_constr_1" true false 1 1 1 2;
  Per "src/ranap/RANAP_PDP-TypeInformation.c:asn_PER_type_RANAP_PDP_TypeInformation_constr_1" true false 1 1 1 2;
  Per "src/ranap/RANAP_PDUType14FrameSequenceNumber.c:asn_PER_type_RANAP_PDUType14FrameSequenceNumber_constr_1" false false 2 2 0 3;
  Per "src/ranap/RANAP_PLMNidentity.c:asn_PER_type_RANAP_PLMNidentity_constr_1" true false 0 0 3 3;
  Per "src/ranap/RANAP_PLMNs-in-shared-network.c:asn_PER_type_RANAP_PLMNs_in_shared_network_constr_1" true false 5 5 1 32;
  Per "src/ranap/RANAP_Paging.c:asn_PER_type_paging_ies_constr_2" true false 16 16 0 65535;
  Per "src/ranap/RANAP_Paging.c:asn_PER_memb_paging_ies_constr_2" true false 16 16 0 65535;
  Per "src/ranap/RANAP_PagingAreaID.c:asn_PER_type_RANAP_PagingAreaID_constr_1" false true 1 1 0 1;
  Per "src/ranap/RANAP_PagingCause.c:asn_PER_type_RANAP_PagingCause_constr_1" false true 3 3 0 4;
  Per "src/ranap/RANAP_PeriodicLocationInfo.c:asn_PER_memb_reportingAmount_constr_2" false true 24 (-1) 1 8639999;
  Per "src/ranap/RANAP_PeriodicLocationInfo.c:asn_PER_memb_reportingInterval_constr_3" false true 24 (-1) 1 8639999;
  Per "src/ranap/RANAP_PeriodicReportingIndicator.c:asn_PER_type_RANAP_PeriodicReportingIndicator_constr_1" false true 1 1 0 1;
  Per "src/ranap/RANAP_PermanentNAS-UE-ID.c:asn_PER_type_RANAP_PermanentNAS_UE_ID_constr_1" false true 0 0 0 0;
  Per "src/ranap/RANAP_PermittedEncryptionAlgorithms.c:asn_PER_type_RANAP_PermittedEncryptionAlgorithms_constr_1" true false 4 4 1 16;
  Per "src/ranap/RANAP_PermittedIntegrityProtectionAlgorithms.c:asn_PER_type_RANAP_PermittedIntegrityProtectionAlgorithms_constr_1" true false 4 4 1 16;
  Per "src/ranap/RANAP_Port-Number.c:asn_PER_type_RANAP_Port_Number_constr_1" true false 0 0 2 2;
  Per "src/ranap/RANAP_PositioningDataDiscriminator.c:asn_PER_type_RANAP_PositioningDataDiscriminator_constr_1" true false 0 0 4 4;
  Per "src/ranap/RANAP_PositioningDataSet.c:asn_PER_type_RANAP_PositioningDataSet_constr_1" true false 4 4 1 9;
  Per "src/ranap/RANAP_PositioningMethodAndUsage.c:asn_PER_type_RANAP_PositioningMethodAndUsage_constr_1" true false 0 0 1 1;
  Per "src/ranap/RANAP_PositioningPriority.c:asn_PER_type_RANAP_PositioningPriority_constr_1" false true 1 1 0 1;
  Per "src/ranap/RANAP_Pre-emptionCapability.c:asn_PER_type_RANAP_Pre_emptionCapability_constr_1" false false 1 1 0 1;
  Per "src/ranap/RANAP_Pre-emptionVulnerability.c:asn_PER_type_RANAP_Pre_emptionVulnerability_constr_1" false false 1 1 0 1;
  Per "src/ranap/RANAP_Presence.c:asn_PER_type_RANAP_Presence_constr_1" false false 2 2 0 2;
  Per "src/ranap/RANAP_Priority-Class-Indicator.c:asn_PER_type_RANAP_Priority_Class_Indicator_constr_1" true false 0 0 8 8;
  Per "src/ranap/RANAP_PriorityLevel.c:asn_PER_type_RANAP_PriorityLevel_constr_1" false false 4 4 0 15;
  Per "src/ranap/RANAP_PrivateIE-ID.c:asn_PER_memb_local_constr_2" false false 16 16 0 65535;
  Per "src/ranap/RANAP_PrivateIE-ID.c:asn_PER_type_RANAP_PrivateIE_ID_constr_1" false false 1 1 0 1;
  Per "src/ranap/RANAP_PrivateMessage.c:asn_PER_type_privateMessage_ies_constr_2" true false 16 16 0 65535;
  Per "src/ranap/RANAP_PrivateMessage.c:asn_PER_memb_privateMessage_ies_constr_2" true false 16 16 0 65535;
  Per "src/ranap/RANAP_ProcedureCode.c:asn_PER_type_RANAP_ProcedureCode_constr_1" false false 8 8 0 255;
  Per "src/ranap/RANAP_ProtocolError-IE-ContainerList.c:asn_PER_type_RANAP_ProtocolError_IE_ContainerList_constr_1" true false 8 8 1 256;
  Per "src/ranap/RANAP_ProtocolExtensionContainer.c:asn_PER_type_RANAP_ProtocolExtensionContainer_constr_1" true false 16 16 1 65535;
  Per "src/ranap/RANAP_ProtocolExtensionID.c:asn_PER_type_RANAP_ProtocolExtensionID_constr_1" false false 16 16 0 65535;
  Per "src/ranap/RANAP_ProtocolIE-Container.c:asn_PER_type_RANAP_ProtocolIE_Container_constr_1" true false 16 16 0 65535;
  Per "src/ranap/RANAP_ProtocolIE-ContainerPair.c:asn_PER_type_RANAP_ProtocolIE_ContainerPair_constr_1" true false 16 16 0 65535;
  Per "src/ranap/RANAP_ProtocolIE-ID.c:asn_PER_type_RANAP_ProtocolIE_ID_constr_1" false false 16 16 0 65535;
  Per "src/ranap/RANAP_ProvidedData.c:asn_PER_type_RANAP_ProvidedData_constr_1" false true 0 0 0 0;
  Per "src/ranap/RANAP_QueuingAllowed.c:asn_PER_type_RANAP_QueuingAllowed_constr_1" false false 1 1 0 1;
  Per "src/ranap/RANAP_RAB-AssignmentRequest.c:asn_PER_type_raB_AssignmentRequest_ies_constr_2" true false 16 16 0 65535;
  Per "src/ranap/RANAP_RAB-AssignmentRequest.c:asn_PER_memb_raB_AssignmentRequest_ies_constr_2" true false 16 16 0 65535;
  Per "src/ranap/RANAP_RAB-AssignmentResponse.c:asn_PER_type_raB_AssignmentResponse_ies_constr_2" true false 16 16 0 65535;
  Per "src/ranap/RANAP_RAB-AssignmentResponse.c:asn_PER_memb_raB_AssignmentResponse_ies_constr_2" true false 16 16 0 65535;
  Per "src/ranap/RANAP_RAB-AsymmetryIndicator.c:asn_PER_type_RANAP_RAB_AsymmetryIndicator_constr_1" false true 2 2 0 3;
  Per "src/ranap/RANAP_RAB-ContextList-RANAP-RelocInf.c:asn_PER_type_raB_ContextList_RANAP_RelocInf_ies_constr_2" true false 16 16 0 65535;
  Per "src/ranap/RANAP_RAB-ContextList-RANAP-RelocInf.c:asn_PER_memb_raB_ContextList_RANAP_RelocInf_ies_constr_2" true false 16 16 0 65535;
  Per "src/ranap/RANAP_RAB-ContextList.c:asn_PER_type_raB_ContextList_ies_constr_2" true false 16 16 0 65535;
  Per "src/ranap/RANAP_RAB-ContextList.c:asn_PER_memb_raB_ContextList_ies_constr_2" true false 16 16 0 65535;
  Per "src/ranap/RANAP_RAB-DataForwardingList-SRNS-CtxReq.c:asn_PER_type_raB_DataForwardingList_SRNS_CtxReq_ies_constr_2" true false 16 16 0 65535;
  Per "src/ranap/RANAP_RAB-DataForwardingList-SRNS-CtxReq.c:asn_PER_memb_raB_DataForwardingList_SRNS_CtxReq_ies_constr_2" true false 16 16 0 65535;
  Per "src/ranap/RANAP_RAB-DataForwardingList.c:asn_PER_type_raB_DataForwardingList_ies_constr_2" true false 16 16 0 65535;
  Per "src/ranap/RANAP_RAB-DataForwardingList.c:asn_PER_memb_raB_DataForwardingList_ies_constr_2" true false 16 16 0 65535;
  Per "src/ranap/RANAP_RAB-DataVolumeReportList.c:asn_PER_type_raB_DataVolumeReportList_ies_constr_2" true false 16 16 0 65535;
  Per "src/ranap/RANAP_RAB-DataVolumeReportList.c:asn_PER_memb_raB_DataVolumeReportList_ies_constr_2" true false 16 16 0 65535;
  Per "src/ranap/RANAP_RAB-DataVolumeReportRequestList.c:asn_PER_type_raB_DataVolumeReportRequestList_ies_constr_2" true false 16 16 0 65535;
  Per "src/ranap/RANAP_RAB-DataVolumeReportRequestList.c:asn_PER_memb_raB_DataVolumeReportRequestList_ies_constr_2" true false 16 16 0 65535;
  Per "src/ranap/RANAP_RAB-FailedList-EnhRelocInfoRes.c:asn_PER_type_raB_FailedList_EnhRelocInfoRes_ies_constr_2" true false 16 16 0 65535;
  Per "src/ranap/RANAP_RAB-FailedList-EnhRelocInfoRes.c:asn_PER_memb_raB_FailedList_EnhRelocInfoRes_ies_constr_2" true false 16 16 0 65535;
  Per "src/ranap/RANAP_RAB-FailedList.c:asn_PER_type_raB_FailedList_ies_constr_2" true false 16 16 0 65535;
  Per "src/ranap/RANAP_RAB-FailedList.c:asn_PER_memb_raB_FailedList_ies_constr_2" true false 16 16 0 65535;
  Per "src/ranap/RANAP_RAB-ID.c:asn_PER_type_RANAP_RAB_ID_constr_1" true false 0 0 8 8;
  Per "src/ranap/RANAP_RAB-IE-ContainerList.c:asn_PER_type_RANAP_RAB_IE_ContainerList_constr_1" true false 8 8 1 256;
  Per "src/ranap/RANAP_RAB-IE-ContainerPairList.c:asn_PER_type_RANAP_RAB_IE_ContainerPairList_constr_1" true false 8 8 1 256;
  Per "src/ranap/RANAP_RAB-ModifyList.c:asn_PER_type_raB_ModifyList_ies_constr_2" true false 16 16 0 65535;
  Per "src/ranap/RANAP_RAB-ModifyList.c:asn_PER_memb_raB_ModifyList_ies_constr_2" true false 16 16 0 65535;
  Per "src/ranap/RANAP_RAB-ModifyRequest.c:asn_PER_type_raB_ModifyRequest_ies_constr_2" true false 16 16 0 65535;
  Per "src/ranap/RANAP_RAB-ModifyRequest.c:asn_PER_memb_raB_ModifyRequest_ies_constr_2" true false 16 16 0 65535;
  Per "src/ranap/RANAP_RAB-Parameter-ExtendedGuaranteedBitrateList.c:asn_PER_type_RANAP_RAB_Parameter_ExtendedGuaranteedBitrateList_constr_1" true false 1 1 1 2;
  Per "src/ranap/RANAP_RAB-Parameter-ExtendedMaxBitrateList.c:asn_PER_type_RANAP_RAB_Parameter_ExtendedMaxBitrateList_constr_1" true false 1 1 1 2;
  Per "src/ranap/RANAP_RAB-Parameter-GuaranteedBitrateList.c:asn_PER_type_RANAP_RAB_Parameter_GuaranteedBitrateList_constr_1" true false 1 1 1 2;
  Per "src/ranap/RANAP_RAB-Parameter-MaxBitrateList.c:asn_PER_type_RANAP_RAB_Parameter_MaxBitrateList_constr_1" true false 1 1 1 2;
  Per "src/ranap/RANAP_RAB-QueuedList.c:asn_PER_type_raB_QueuedList_ies_constr_2" true false 16 16 0 65535;
  Per "src/ranap/RANAP_RAB-QueuedList.c:asn_PER_memb_raB_QueuedList_ies_constr_2" true false 16 16 0 65535;
  Per "src/ranap/RANAP_RAB-ReleaseList.c:asn_PER_type_raB_ReleaseList_ies_constr_2" true false 16 16 0 65535;
  Per "src/ranap/RANAP_RAB-ReleaseList.c:asn_PER_memb_raB_ReleaseList_ies_constr_2" true false 16 16 0 65535;
  Per "src/ranap/RANAP_RAB-ReleaseRequest.c:asn_PER_type_raB_ReleaseRequest_ies_constr_2" true false 16 16 0 65535;
  Per "src/ranap/RANAP_RAB-ReleaseRequest.c:asn_PER_memb_raB_ReleaseRequest_ies_constr_2" true false 16 16 0 65535;
  Per "src/ranap/RANAP_RAB-ReleasedList-IuRelComp.c:asn_PER_type_raB_ReleasedList_IuRelComp_ies_constr_2" true false 16 16 0 65535;
  Per "src/ranap/RANAP_RAB-ReleasedList-IuRelComp.c:asn_PER_memb_raB_ReleasedList_IuRelComp_ies_constr_2" true false 16 16 0 65535;
  Per "src/ranap/RANAP_RAB-ReleasedList.c:asn_PER_type_raB_ReleasedList_ies_constr_2" true false 16 16 0 65535;
  Per "src/ranap/RANAP_RAB-ReleasedList.c:asn_PER_memb_raB_ReleasedList_ies_constr_2" true false 16 16 0 65535;
  Per "src/ranap/RANAP_RAB-RelocationReleaseList.c:asn_PER_type_raB_RelocationReleaseList_ies_constr_2" true false 16 16 0 65535;
  Per "src/ranap/RANAP_RAB-RelocationReleaseList.c:asn_PER_memb_raB_RelocationReleaseList_ies_constr_2" true false 16 16 0 65535;
  Per "src/ranap/RANAP_RAB-SetupList-EnhRelocInfoReq.c:asn_PER_type_raB_SetupList_EnhRelocInfoReq_ies_constr_2" true false 16 16 0 65535;
  Per "src/ranap/RANAP_RAB-SetupList-EnhRelocInfoReq.c:asn_PER_memb_raB_SetupList_EnhRelocInfoReq_ies_constr_2" true false 16 16 0 65535;
  Per "src/ranap/RANAP_RAB-SetupList-EnhRelocInfoRes.c:asn_PER_type_raB_SetupList_EnhRelocInfoRes_ies_constr_2" true false 16 16 0 65535;
  Per "src/ranap/RANAP_RAB-SetupList-EnhRelocInfoRes.c:asn_PER_memb_raB_SetupList_EnhRelocInfoRes_ies_constr_2" true false 16 16 0 65535;
  Per "src/ranap/RANAP_RAB-SetupList-EnhancedRelocCompleteReq.c:asn_PER_type_raB_SetupList_EnhancedRelocCompleteReq_ies_constr_2" true false 16 16 0 65535;
  Per "src/ranap/RANAP_RAB-SetupList-EnhancedRelocCompleteReq.c:asn_PER_memb_raB_SetupList_EnhancedRelocCompleteReq_ies_constr_2" true false 16 16 0 65535;
  Per "src/ranap/RANAP_RAB-SetupList-EnhancedRelocCompleteRes.c:asn_PER_type_raB_SetupList_EnhancedRelocCompleteRes_ies_constr_2" true false 16 16 0 65535;
  Per "src/ranap/RANAP_RAB-SetupList-EnhancedRelocCompleteRes.c:asn_PER_memb_raB_SetupList_EnhancedRelocCompleteRes_ies_constr_2" true false 16 16 0 65535;
  Per "src/ranap/RANAP_RAB-SetupList-RelocReq.c:asn_PER_type_raB_SetupList_RelocReq_ies_constr_2" true false 16 16 0 65535;
  Per "src/ranap/RANAP_RAB-SetupList-RelocReq.c:asn_PER_memb_raB_SetupList_RelocReq_ies_constr_2" true false 16 16 0 65535;
  Per "src/ranap/RANAP_RAB-SetupList-RelocReqAck.c:asn_PER_type_raB_SetupList_RelocReqAck_ies_constr_2" true false 16 16 0 65535;
  Per "src/ranap/RANAP_RAB-SetupList-RelocReqAck.c:asn_PER_memb_raB_SetupList_RelocReqAck_ies_constr_2" true false 16 16 0 65535;
  Per "src/ranap/RANAP_RAB-SetupOrModifiedList.c:asn_PER_type_raB_SetupOrModifiedList_ies_constr_2" true false 16 16 0 65535;
  Per "src/ranap/RANAP_RAB-SetupOrModifiedList.c:asn_PER_memb_raB_SetupOrModifiedList_ies_constr_2" true false 16 16 0 65535;
  Per "src/ranap/RANAP_RAB-SubflowCombinationBitRate.c:asn_PER_type_RANAP_RAB_SubflowCombinationBitRate_constr_1" false false 24 (-1) 0 16000000;
  Per "src/ranap/RANAP_RAB-ToBeReleasedList-EnhancedRelocCompleteRes.c:asn_PER_type_raB_ToBeReleasedList_EnhancedRelocCompleteRes_ies_constr_2" true false 16 16 0 65535;
  Per "src/ranap/RANAP_RAB-ToBeReleasedList-EnhancedRelocCompleteRes.c:asn_PER_memb_raB_ToBeReleasedList_EnhancedRelocCompleteRes_ies_constr_2" true false 16 16 0 65535;
  Per "src/ranap/RANAP_RAB-TrCH-Mapping.c:asn_PER_type_RANAP_RAB_TrCH_Mapping_constr_1" true false 8 8 1 256;
  Per "src/ranap/RANAP_RABDataVolumeReport.c:asn_PER_type_RANAP_RABDataVolumeReport_constr_1" true false 1 1 1 2;
  Per "src/ranap/RANAP_RABParametersList.c:asn_PER_type_RANAP_RABParametersList_constr_1" true false 8 8 1 256;
  Per "src/ranap/RANAP_RABs-ContextFailedtoTransferList.c:asn_PER_type_raBs_ContextFailedtoTransferList_ies_constr_2" true false 16 16 0 65535;
  Per "src/ranap/RANAP_RABs-ContextFailedtoTransferList.c:asn_PER_memb_raBs_ContextFailedtoTransferList_ies_constr_2" true false 16 16 0 65535;
  Per "src/ranap/RANAP_RABs-failed-to-reportList.c:asn_PER_type_raBs_failed_to_reportList_ies_constr_2" true false 16 16 0 65535;
  Per "src/ranap/RANAP_RABs-failed-to-reportList.c:asn_PER_memb_raBs_failed_to_reportList_ies_constr_2" true false 16 16 0 65535;
  Per "src/ranap/RANAP_RAC.c:asn_PER_type_RANAP_RAC_constr_1" true false 0 0 1 1;
  Per "src/ranap/RANAP_RAI-List.c:asn_PER_type_RANAP_RAI_List_constr_1" true false 3 3 1 8;
  Per "src/ranap/RANAP_RAListofIdleModeUEs.c:asn_PER_type_emptyFullRAListofIdleModeUEs_constr_3" false true 1 1 0 1;
  Per "src/ranap/RANAP_RAListofIdleModeUEs.c:asn_PER_type_RANAP_RAListofIdleModeUEs_constr_1" false true 1 1 0 1;
  Per "src/ranap/RANAP_RAListwithNoIdleModeUEsAnyMore.c:asn_PER_type_RANAP_RAListwithNoIdleModeUEsAnyMore_constr_1" true false 16 (-1) 1 65536;
  Per "src/ranap/RANAP_RANAP-EnhancedRelocationInformationRequest.c:asn_PER_type_ranaP_EnhancedRelocationInformationRequest_ies_constr_2" true false 16 16 0 65535;
  Per "src/ranap/RANAP_RANAP-EnhancedRelocationInformationRequest.c:asn_PER_memb_ranaP_EnhancedRelocationInformationRequest_ies_constr_2" true false 16 16 0 65535;
  Per "src/ranap/RANAP_RANAP-EnhancedRelocationInformationResponse.c:asn_PER_type_ranaP_EnhancedRelocationInformationResponse_ies_constr_2" true false 16 16 0 65535;
  Per "src/ranap/RANAP_RANAP-EnhancedRelocationInformationResponse.c:asn_PER_memb_ranaP_EnhancedRelocationInformationResponse_ies_constr_2" true false 16 16 0 65535;
  Per "src/ranap/RANAP_RANAP-PDU.c:asn_PER_type_RANAP_RANAP_PDU_constr_1" false true 2 2 0 3;
  Per "src/ranap/RANAP_RANAP-RelocationInformation.c:asn_PER_type_ranaP_RelocationInformation_ies_constr_2" true false 16 16 0 65535;
  Per "src/ranap/RANAP_RANAP-RelocationInformation.c:asn_PER_memb_ranaP_RelocationInformation_ies_constr_2" true false 16 16 0 65535;
  Per "src/ranap/RANAP_RAT-Type.c:asn_PER_type_RANAP_RAT_Type_constr_1" false true 1 1 0 1;
  Per "src/ranap/RANAP_RAofIdleModeUEs.c:asn_PER_type_RANAP_RAofIdleModeUEs_constr_1" true false 16 (-1) 1 65536;
  Per "src/ranap/RANAP_RIMRoutingAddress.c:asn_PER_type_RANAP_RIMRoutingAddress_constr_1" false true 1 1 0 1;
  Per "src/ranap/RANAP_RNC-ID.c:asn_PER_type_RANAP_RNC_ID_constr_1" false false 12 12 0 4095;
  Per "src/ranap/RANAP_RNCTraceInformation.c:asn_PER_type_traceActivationIndicato_constr_3" false false 1 1 0 1;
  Per "src/ranap/RANAP_RSRQ-Extension.c:asn_PER_type_RANAP_RSRQ_Extension_constr_1" false true 7 7 (-30) 46;
  Per "src/ranap/RANAP_RSRVCC-HO-Indication.c:asn_PER_type_RANAP_RSRVCC_HO_Indication_constr_1" false true 0 0 0 0;
  Per "src/ranap/RANAP_RSRVCC-Information.c:asn_PER_memb_nonce_constr_2" true false 0 0 128 128;
  Per "src/ranap/RANAP_RSRVCC-Information.c:asn_PER_memb_iMSInformation_constr_3" true false 5 5 1 32;
  Per "src/ranap/RANAP_RSRVCC-Operation-Possible.c:asn_PER_type_RANAP_RSRVCC_Operation_Possible_constr_1" false true 0 0 0 0;
  Per "src/ranap/RANAP_RTLoadValue.c:asn_PER_type_RANAP_RTLoadValue_constr_1" false false 7 7 0 100;
  Per "src/ranap/RANAP_RateControlAllowed.c:asn_PER_type_RANAP_RateControlAllowed_constr_1" false false 1 1 0 1;
  Per "src/ranap/RANAP_RedirectionCompleted.c:asn_PER_type_RANAP_RedirectionCompleted_constr_1" false true 0 0 0 0;
  Per "src/ranap/RANAP_RedirectionIndication.c:asn_PER_type_redirectionIndication_ies_constr_2" true false 16 16 0 65535;
  Per "src/ranap/RANAP_RedirectionIndication.c:asn_PER_memb_redirectionIndication_ies_constr_2" true false 16 16 0 65535;
  Per "src/ranap/RANAP_RejectCauseValue.c:asn_PER_type_RANAP_RejectCauseValue_constr_1" false true 3 3 0 5;
  Per "src/ranap/RANAP_RelocationCancel.c:asn_PER_type_relocationCancel_ies_constr_2" true false 16 16 0 65535;
  Per "src/ranap/RANAP_RelocationCancel.c:asn_PER_memb_relocationCancel_ies_constr_2" true false 16 16 0 65535;
  Per "src/ranap/RANAP_RelocationCancelAcknowledge.c:asn_PER_type_relocationCancelAcknowledge_ies_constr_2" true false 16 16 0 65535;
  Per "src/ranap/RANAP_RelocationCancelAcknowledge.c:asn_PER_memb_relocationCancelAcknowledge_ies_constr_2" true false 16 16 0 65535;
  Per "src/ranap/RANAP_RelocationCommand.c:asn_PER_type_relocationCommand_ies_constr_2" true false 16 16 0 65535;
  Per "src/ranap/RANAP_RelocationCommand.c:asn_PER_memb_relocationCommand_ies_constr_2" true false 16 16 0 65535;
  Per "src/ranap/RANAP_RelocationComplete.c:asn_PER_type_relocationComplete_ies_constr_2" true false 16 16 0 65535;
  Per "src/ranap/RANAP_RelocationComplete.c:asn_PER_memb_relocationComplete_ies_constr_2" true false 16 16 0 65535;
  Per "src/ranap/RANAP_RelocationDetect.c:asn_PER_type_relocationDetect_ies_constr_2" true false 16 16 0 65535;
  Per "src/ranap/RANAP_RelocationDetect.c:asn_PER_memb_relocationDetect_ies_constr_2" true false 16 16 0 65535;
  Per "src/ranap/RANAP_RelocationFailure.c:asn_PER_type_relocationFailure_ies_constr_2" true false 16 16 0 65535;
  Per "src/ranap/RANAP_RelocationFailure.c:asn_PER_memb_relocationFailure_ies_constr_2" true false 16 16 0 65535;
  Per "src/ranap/RANAP_RelocationPreparationFailure.c:asn_PER_type_relocationPreparationFailure_ies_constr_2" true false 16 16 0 65535;
  Per "src/ranap/RANAP_RelocationPreparationFailure.c:asn_PER_memb_relocationPreparationFailure_ies_constr_2" true false 16 16 0 65535;
  Per "src/ranap/RANAP_RelocationRequest.c:asn_PER_type_relocationRequest_ies_constr_2" true false 16 16 0 65535;
  Per "src/ranap/RANAP_RelocationRequest.c:asn_PER_memb_relocationRequest_ies_constr_2" true false 16 16 0 65535;
  Per "src/ranap/RANAP_RelocationRequestAcknowledge.c:asn_PER_type_relocationRequestAcknowledge_ies_constr_2" true false 16 16 0 65535;
  Per "src/ranap/RANAP_RelocationRequestAcknowledge.c:asn_PER_memb_relocationRequestAcknowledge_ies_constr_2" true false 16 16 0 65535;
  Per "src/ranap/RANAP_RelocationRequired.c:asn_PER_type_relocationRequired_ies_constr_2" true false 16 16 0 65535;
  Per "src/ranap/RANAP_RelocationRequired.c:asn_PER_memb_relocationRequired_ies_constr_2" true false 16 16 0 65535;
  Per "src/ranap/RANAP_RelocationRequirement.c:asn_PER_type_RANAP_RelocationRequirement_constr_1" false true 1 1 0 1;
  Per "src/ranap/RANAP_RelocationType.c:asn_PER_type_RANAP_RelocationType_constr_1" false true 1 1 0 1;
  Per "src/ranap/RANAP_RepetitionNumber0.c:asn_PER_type_RANAP_RepetitionNumber0_constr_1" false false 8 8 0 255;
  Per "src/ranap/RANAP_RepetitionNumber1.c:asn_PER_type_RANAP_RepetitionNumber1_constr_1" false false 8 8 1 256;
  Per "src/ranap/RANAP_ReportAmount.c:asn_PER_type_RANAP_ReportAmount_constr_1" false true 3 3 0 7;
  Per "src/ranap/RANAP_ReportArea.c:asn_PER_type_RANAP_ReportArea_constr_1" false true 1 1 0 1;
  Per "src/ranap/RANAP_ReportChangeOfSAI.c:asn_PER_type_RANAP_ReportChangeOfSAI_constr_1" false true 0 0 0 0;
  Per "src/ranap/RANAP_ReportInterval.c:asn_PER_type_RANAP_ReportInterval_constr_1" false true 4 4 0 12;
  Per "src/ranap/RANAP_RequestType.c:asn_PER_memb_accuracyCode_constr_4" false false 7 7 0 127;
  Per "src/ranap/RANAP_Requested-RAB-Parameter-ExtendedGuaranteedBitrateList.c:asn_PER_type_RANAP_Requested_RAB_Parameter_ExtendedGuaranteedBitrateList_constr_1" true false 1 1 1 2;
  Per "src/ranap/RANAP_Requested-RAB-Parameter-ExtendedMaxBitrateList.c:asn_PER_type_RANAP_Requested_RAB_Parameter_ExtendedMaxBitrateList_constr_1" true false 1 1 1 2;
  Per "src/ranap/RANAP_Requested-RAB-Parameter-GuaranteedBitrateList.c:asn_PER_type_RANAP_Requested_RAB_Parameter_GuaranteedBitrateList_constr_1" true false 1 1 1 2;
  Per "src/ranap/RANAP_Requested-RAB-Parameter-MaxBitrateList.c:asn_PER_type_RANAP_Requested_RAB_Parameter_MaxBitrateList_constr_1" true false 1 1 1 2;
  Per "src/ranap/RANAP_RequestedGANSSAssistanceData.c:asn_PER_type_RANAP_RequestedGANSSAssistanceData_constr_1" true false 8 8 1 201;
  Per "src/ranap/RANAP_RequestedGPSAssistanceData.c:asn_PER_type_RANAP_RequestedGPSAssistanceData_constr_1" true false 6 6 1 38;
  Per "src/ranap/RANAP_RequestedLocationRelatedDataType.c:asn_PER_type_RANAP_RequestedLocationRelatedDataType_constr_1" false true 2 2 0 3;
  Per "src/ranap/RANAP_RequestedMBMSIPMulticastAddressandAPNRequest.c:asn_PER_type_RANAP_RequestedMBMSIPMulticastAddressandAPNRequest_constr_1" true false 9 9 1 512;
  Per "src/ranap/RANAP_RequestedMulticastServiceList.c:asn_PER_type_RANAP_RequestedMulticastServiceList_constr_1" true false 7 7 1 128;
  Per "src/ranap/RANAP_Reset.c:asn_PER_type_reset_ies_constr_2" true false 16 16 0 65535;
  Per "src/ranap/RANAP_Reset.c:asn_PER_memb_reset_ies_constr_2" true false 16 16 0 65535;
  Per "src/ranap/RANAP_ResetAcknowledge.c:asn_PER_type_resetAcknowledge_ies_constr_2" true false 16 16 0 65535;
  Per "src/ranap/RANAP_ResetAcknowledge.c:asn_PER_memb_resetAcknowledge_ies_constr_2" true false 16 16 0 65535;
  Per "src/ranap/RANAP_ResetResource.c:asn_PER_type_resetResource_ies_constr_2" true false 16 16 0 65535;
  Per "src/ranap/RANAP_ResetResource.c:asn_PER_memb_resetResource_ies_constr_2" true false 16 16 0 65535;
  Per "src/ranap/RANAP_ResetResourceAckList.c:asn_PER_type_resetResourceAckList_ies_constr_2" true false 16 16 0 65535;
  Per "src/ranap/RANAP_ResetResourceAckList.c:asn_PER_memb_resetResourceAckList_ies_constr_2" true false 16 16 0 65535;
  Per "src/ranap/RANAP_ResetResourceAcknowledge.c:asn_PER_type_resetResourceAcknowledge_ies_constr_2" true false 16 16 0 65535;
  Per "src/ranap/RANAP_ResetResourceAcknowledge.c:asn_PER_memb_resetResourceAcknowledge_ies_constr_2" true false 16 16 0 65535;
  Per "src/ranap/RANAP_ResetResourceList.c:asn_PER_type_resetResourceList_ies_constr_2" true false 16 16 0 65535;
  Per "src/ranap/RANAP_ResetResourceList.c:asn_PER_memb_resetResourceList_ies_constr_2" true false 16 16 0 65535;
  Per "src/ranap/RANAP_ResidualBitErrorRatio.c:asn_PER_memb_mantissa_constr_2" false false 4 4 1 9;
  Per "src/ranap/RANAP_ResidualBitErrorRatio.c:asn_PER_memb_exponent_constr_3" false false 3 3 1 8;
  Per "src/ranap/RANAP_ResponseTime.c:asn_PER_type_RANAP_ResponseTime_constr_1" false true 1 1 0 1;
  Per "src/ranap/RANAP_SAC.c:asn_PER_type_RANAP_SAC_constr_1" true false 0 0 2 2;
  Per "src/ranap/RANAP_SAPI.c:asn_PER_type_RANAP_SAPI_constr_1" false true 1 1 0 1;
  Per "src/ranap/RANAP_SDU-ErrorRatio.c:asn_PER_memb_mantissa_constr_2" false false 4 4 1 9;
  Per "src/ranap/RANAP_SDU-ErrorRatio.c:asn_PER_memb_exponent_constr_3" false false 3 3 1 6;
  Per "src/ranap/RANAP_SDU-FormatInformationParameters.c:asn_PER_type_RANAP_SDU_FormatInformationParameters_constr_1" true false 6 6 1 64;
  Per "src/ranap/RANAP_SDU-Parameters.c:asn_PER_type_RANAP_SDU_Parameters_constr_1" true false 3 3 1 7;
  Per "src/ranap/RANAP_SNAC.c:asn_PER_type_RANAP_SNAC_constr_1" false false 16 16 0 65535;
  Per "src/ranap/RANAP_SRB-ID.c:asn_PER_type_RANAP_SRB_ID_constr_1" false false 5 5 1 32;
  Per "src/ranap/RANAP_SRB-TrCH-Mapping.c:asn_PER_type_RANAP_SRB_TrCH_Mapping_constr_1" true false 3 3 1 8;
  Per "src/ranap/RANAP_SRNS-ContextRequest.c:asn_PER_type_srnS_ContextRequest_ies_constr_2" true false 16 16 0 65535;
  Per "src/ranap/RANAP_SRNS-ContextRequest.c:asn_PER_memb_srnS_ContextRequest_ies_constr_2" true false 16 16 0 65535;
  Per "src/ranap/RANAP_SRNS-ContextResponse.c:asn_PER_type_srnS_ContextResponse_ies_constr_2" true false 16 16 0 65535;
  Per "src/ranap/RANAP_SRNS-ContextResponse.c:asn_PER_memb_srnS_ContextResponse_ies_constr_2" true false 16 16 0 65535;
  Per "src/ranap/RANAP_SRNS-DataForwardCommand.c:asn_PER_type_srnS_DataForwardCommand_ies_constr_2" true false 16 16 0 65535;
  Per "src/ranap/RANAP_SRNS-DataForwardCommand.c:asn_PER_memb_srnS_DataForwardCommand_ies_constr_2" true false 16 16 0 65535;
  Per "src/ranap/RANAP_SRVCC-CSKeysRequest.c:asn_PER_type_srvcC_CSKeysRequest_ies_constr_2" true false 16 16 0 65535;
  Per "src/ranap/RANAP_SRVCC-CSKeysRequest.c:asn_PER_memb_srvcC_CSKeysRequest_ies_constr_2" true false 16 16 0 65535;
  Per "src/ranap/RANAP_SRVCC-CSKeysResponse.c:asn_PER_type_srvcC_CSKeysResponse_ies_constr_2" true false 16 16 0 65535;
  Per "src/ranap/RANAP_SRVCC-CSKeysResponse.c:asn_PER_memb_srvcC_CSKeysResponse_ies_constr_2" true false 16 16 0 65535;
  Per "src/ranap/RANAP_SRVCC-HO-Indication.c:asn_PER_type_RANAP_SRVCC_HO_Indication_constr_1" false true 1 1 0 1;
  Per "src/ranap/RANAP_SRVCC-Information.c:asn_PER_memb_nonce_constr_2" true false 0 0 128 128;
  Per "src/ranap/RANAP_SRVCC-Operation-Possible.c:asn_PER_type_RANAP_SRVCC_Operation_Possible_constr_1" false true 0 0 0 0;
  Per "src/ranap/RANAP_SecurityModeCommand.c:asn_PER_type_securityModeCommand_ies_constr_2" true false 16 16 0 65535;
  Per "src/ranap/RANAP_SecurityModeCommand.c:asn_PER_memb_securityModeCommand_ies_constr_2" true false 16 16 0 65535;
  Per "src/ranap/RANAP_SecurityModeComplete.c:asn_PER_type_securityModeComplete_ies_constr_2" true false 16 16 0 65535;
  Per "src/ranap/RANAP_SecurityModeComplete.c:asn_PER_memb_securityModeComplete_ies_constr_2" true false 16 16 0 65535;
  Per "src/ranap/RANAP_SecurityModeReject.c:asn_PER_type_securityModeReject_ies_constr_2" true false 16 16 0 65535;
  Per "src/ranap/RANAP_SecurityModeReject.c:asn_PER_memb_securityModeReject_ies_constr_2" true false 16 16 0 65535;
  Per "src/ranap/RANAP_Service-Handover.c:asn_PER_type_RANAP_Service_Handover_constr_1" false true 2 2 0 2;
  Per "src/ranap/RANAP_Session-Re-establishment-Indicator.c:asn_PER_type_RANAP_Session_Re_establishment_Indicator_constr_1" false true 0 0 0 0;
  Per "src/ranap/RANAP_SessionUpdateID.c:asn_PER_type_RANAP_SessionUpdateID_constr_1" false false 20 (-1) 0 1048575;
  Per "src/ranap/RANAP_SignallingIndication.c:asn_PER_type_RANAP_SignallingIndication_constr_1" false true 0 0 0 0;
  Per "src/ranap/RANAP_SourceCellID.c:asn_PER_type_RANAP_SourceCellID_constr_1" false true 1 1 0 1;
  Per "src/ranap/RANAP_SourceID.c:asn_PER_type_RANAP_SourceID_constr_1" false true 1 1 0 1;
  Per "src/ranap/RANAP_SourceStatisticsDescriptor.c:asn_PER_type_RANAP_SourceStatisticsDescriptor_constr_1" false true 1 1 0 1;
  Per "src/ranap/RANAP_SubflowSDU-Size.c:asn_PER_type_RANAP_SubflowSDU_Size_constr_1" false false 12 12 0 4095;
  Per "src/ranap/RANAP_SubscriberProfileIDforRFP.c:asn_PER_type_RANAP_SubscriberProfileIDforRFP_constr_1" false false 8 8 1 256;
  Per "src/ranap/RANAP_SupportedBitrate.c:asn_PER_type_RANAP_SupportedBitrate_constr_1" false true 30 (-1) 1 1000000000;
  Per "src/ranap/RANAP_SupportedRAB-ParameterBitrateList.c:asn_PER_type_RANAP_SupportedRAB_ParameterBitrateList_constr_1" true false 1 1 1 2;
  Per "src/ranap/RANAP_TAC.c:asn_PER_type_RANAP_TAC_constr_1" true false 0 0 2 2;
  Per "src/ranap/RANAP_TMGI.c:asn_PER_memb_serviceID_constr_3" true false 0 0 3 3;
  Per "src/ranap/RANAP_TMSI.c:asn_PER_type_RANAP_TMSI_constr_1" true false 0 0 4 4;
  Per "src/ranap/RANAP_TargetCellId.c:asn_PER_type_RANAP_TargetCellId_constr_1" false false 28 (-1) 0 268435455;
  Per "src/ranap/RANAP_TargetID.c:asn_PER_type_RANAP_TargetID_constr_1" false true 1 1 0 1;
  Per "src/ranap/RANAP_TemporaryUE-ID.c:asn_PER_type_RANAP_TemporaryUE_ID_constr_1" false true 1 1 0 1;
  Per "src/ranap/RANAP_Time-UE-StayedInCell-EnhancedGranularity.c:asn_PER_type_RANAP_Time_UE_StayedInCell_EnhancedGranularity_constr_1" false false 16 16 0 40950;
  Per "src/ranap/RANAP_Time-UE-StayedInCell.c:asn_PER_type_RANAP_Time_UE_StayedInCell_constr_1" false false 12 12 0 4095;
  Per "src/ranap/RANAP_TimeToMBMSDataTransfer.c:asn_PER_type_RANAP_TimeToMBMSDataTransfer_constr_1" true false 0 0 1 1;
  Per "src/ranap/RANAP_TimingDifferenceULDL.c:asn_PER_type_RANAP_TimingDifferenceULDL_constr_1" true false 0 0 1 1;
  Per "src/ranap/RANAP_TrCH-ID-List.c:asn_PER_type_RANAP_TrCH_ID_List_constr_1" true false 3 3 1 7;
  Per "src/ranap/RANAP_TraceDepth.c:asn_PER_type_RANAP_TraceDepth_constr_1" false true 2 2 0 2;
  Per "src/ranap/RANAP_TraceRecordingSessionReference.c:asn_PER_type_RANAP_TraceRecordingSessionReference_constr_1" false false 16 16 0 65535;
  Per "src/ranap/RANAP_TraceReference.c:asn_PER_type_RANAP_TraceReference_constr_1" true false 1 1 2 3;
  Per "src/ranap/RANAP_TraceType.c:asn_PER_type_RANAP_TraceType_constr_1" true false 0 0 1 1;
  Per "src/ranap/RANAP_TrafficClass.c:asn_PER_type_RANAP_TrafficClass_constr_1" false true 2 2 0 3;
  Per "src/ranap/RANAP_TrafficHandlingPriority.c:asn_PER_type_RANAP_TrafficHandlingPriority_constr_1" false false 4 4 0 15;
  Per "src/ranap/RANAP_TransferDelay.c:asn_PER_type_RANAP_TransferDelay_constr_1" false false 16 16 0 65535;
  Per "src/ranap/RANAP_TransportLayerAddress.c:asn_PER_type_RANAP_TransportLayerAddress_constr_1" true true 8 8 1 160;
  Per "src/ranap/RANAP_TriggerID.c:asn_PER_type_RANAP_TriggerID_constr_1" true false 5 5 3 22;
  Per "src/ranap/RANAP_TriggeringMessage.c:asn_PER_type_RANAP_TriggeringMessage_constr_1" false false 2 2 0 3;
  Per "src/ranap/RANAP_TypeOfError.c:asn_PER_type_RANAP_TypeOfError_constr_1" false true 1 1 0 1;
  Per "src/ranap/RANAP_UE-AggregateMaximumBitRateDownlink.c:asn_PER_type_RANAP_UE_AggregateMaximumBitRateDownlink_constr_1" false false 30 (-1) 1 1000000000;
  Per "src/ranap/RANAP_UE-AggregateMaximumBitRateUplink.c:asn_PER_type_RANAP_UE_AggregateMaximumBitRateUplink_constr_1" false false 30 (-1) 1 1000000000;
  Per "src/ranap/RANAP_UE-ID.c:asn_PER_type_RANAP_UE_ID_constr_1" false true 1 1 0 1;
  Per "src/ranap/RANAP_UESBI-IuA.c:asn_PER_type_RANAP_UESBI_IuA_constr_1" true false 7 7 1 128;
  Per "src/ranap/RANAP_UESBI-IuB.c:asn_PER_type_RANAP_UESBI_IuB_constr_1" true false 7 7 1 128;
  Per "src/ranap/RANAP_UESpecificInformationIndication.c:asn_PER_type_ueSpecificInformationIndication_ies_constr_2" true false 16 16 0 65535;
  Per "src/ranap/RANAP_UESpecificInformationIndication.c:asn_PER_memb_ueSpecificInformationIndication_ies_constr_2" true false 16 16 0 65535;
  Per "src/ranap/RANAP_UL-GTP-PDU-SequenceNumber.c:asn_PER_type_RANAP_UL_GTP_PDU_SequenceNumber_constr_1" false false 16 16 0 65535;
  Per "src/ranap/RANAP_UL-N-PDU-SequenceNumber.c:asn_PER_type_RANAP_UL_N_PDU_SequenceNumber_constr_1" false false 16 16 0 65535;
  Per "src/ranap/RANAP_UP-ModeVersions.c:asn_PER_type_RANAP_UP_ModeVersions_constr_1" true false 0 0 16 16;
  Per "src/ranap/RANAP_USCH-ID.c:asn_PER_type_RANAP_USCH_ID_constr_1" false false 8 8 0 255;
  Per "src/ranap/RANAP_UeRadioCapabilityMatchRequest.c:asn_PER_type_ueRadioCapabilityMatchRequest_ies_constr_2" true false 16 16 0 65535;
  Per "src/ranap/RANAP_UeRadioCapabilityMatchRequest.c:asn_PER_memb_ueRadioCapabilityMatchRequest_ies_constr_2" true false 16 16 0 65535;
  Per "src/ranap/RANAP_UeRadioCapabilityMatchResponse.c:asn_PER_type_ueRadioCapabilityMatchResponse_ies_constr_2" true false 16 16 0 65535;
  Per "src/ranap/RANAP_UeRadioCapabilityMatchResponse.c:asn_PER_memb_ueRadioCapabilityMatchResponse_ies_constr_2" true false 16 16 0 65535;
  Per "src/ranap/RANAP_UnsuccessfulLinking-IEs.c:asn_PER_type_RANAP_UnsuccessfulLinking_IEs_constr_1" true false 7 7 1 128;
  Per "src/ranap/RANAP_UnsuccessfullyTransmittedDataVolume.c:asn_PER_type_RANAP_UnsuccessfullyTransmittedDataVolume_constr_1" false false 32 (-1) 0 4294967295;
  Per "src/ranap/RANAP_UplinkInformationExchangeFailure.c:asn_PER_type_uplinkInformationExchangeFailure_ies_constr_2" true false 16 16 0 65535;
  Per "src/ranap/RANAP_UplinkInformationExchangeFailure.c:asn_PER_memb_uplinkInformationExchangeFailure_ies_constr_2" true false 16 16 0 65535;
  Per "src/ranap/RANAP_UplinkInformationExchangeRequest.c:asn_PER_type_uplinkInformationExchangeRequest_ies_constr_2" true false 16 16 0 65535;
  Per "src/ranap/RANAP_UplinkInformationExchangeRequest.c:asn_PER_memb_uplinkInformationExchangeRequest_ies_constr_2" true false 16 16 0 65535;
  Per "src/ranap/RANAP_UplinkInformationExchangeResponse.c:asn_PER_type_uplinkInformationExchangeResponse_ies_constr_2" true false 16 16 0 65535;
  Per "src/ranap/RANAP_UplinkInformationExchangeResponse.c:asn_PER_memb_uplinkInformationExchangeResponse_ies_constr_2" true false 16 16 0 65535;
  Per "src/ranap/RANAP_UserPlaneMode.c:asn_PER_type_RANAP_UserPlaneMode_constr_1" false true 1 1 0 1;
  Per "src/ranap/RANAP_VelocityEstimate.c:asn_PER_type_RANAP_VelocityEstimate_constr_1" false true 2 2 0 3;
  Per "src/ranap/RANAP_VerticalAccuracyCode.c:asn_PER_type_RANAP_VerticalAccuracyCode_constr_1" false false 7 7 0 127;
  Per "src/ranap/RANAP_VerticalSpeedDirection.c:asn_PER_type_RANAP_VerticalSpeedDirection_constr_1" false false 1 1 0 1;
  Per "src/ranap/RANAP_VerticalVelocity.c:asn_PER_memb_veritcalSpeed_constr_2" false false 8 8 0 255;
  Per "src/ranap/RANAP_VoiceSupportMatchIndicator.c:asn_PER_type_RANAP_VoiceSupportMatchIndicator_constr_1" false true 1 1 0 1;
  Per "src/rua/RUA_Ansi-41-IDNNS.c:asn_PER_type_RUA_Ansi_41_IDNNS_constr_1" true false 0 0 14 14;
  Per "src/rua/RUA_CN-DomainIndicator.c:asn_PER_type_RUA_CN_DomainIndicator_constr_1" false false 1 1 0 1;
  Per "src/rua/RUA_CSGMembershipStatus.c:asn_PER_type_RUA_CSGMembershipStatus_constr_1" false true 1 1 0 1;
  Per "src/rua/RUA_Cause.c:asn_PER_type_RUA_Cause_constr_1" false true 2 2 0 3;
  Per "src/rua/RUA_CauseMisc.c:asn_PER_type_RUA_CauseMisc_constr_1" false true 2 2 0 3;
  Per "src/rua/RUA_CauseProtocol.c:asn_PER_type_RUA_CauseProtocol_constr_1" false true 3 3 0 6;
  Per "src/rua/RUA_CauseRadioNetwork.c:asn_PER_type_RUA_CauseRadioNetwork_constr_1" false true 2 2 0 3;
  Per "src/rua/RUA_CauseTransport.c:asn_PER_type_RUA_CauseTransport_constr_1" false true 1 1 0 1;
  Per "src/rua/RUA_Connect.c:asn_PER_type_connect_ies_constr_2" true false 16 16 0 65535;
  Per "src/rua/RUA_Connect.c:asn_PER_memb_connect_ies_constr_2" true false 16 16 0 65535;
  Per "src/rua/RUA_ConnectionlessTransfer.c:asn_PER_type_connectionlessTransfer_ies_constr_2" true false 16 16 0 65535;
  Per "src/rua/RUA_ConnectionlessTransfer.c:asn_PER_memb_connectionlessTransfer_ies_constr_2" true false 16 16 0 65535;
  Per "src/rua/RUA_Context-ID.c:asn_PER_type_RUA_Context_ID_constr_1" true false 0 0 24 24;
  Per "src/rua/RUA_Criticality.c:asn_PER_type_RUA_Criticality_constr_1" false false 2 2 0 2;
  Per "src/rua/RUA_CriticalityDiagnostics-IE-List.c:asn_PER_type_RUA_CriticalityDiagnostics_IE_List_constr_1" true false 8 8 1 256;
  Per "src/rua/RUA_DirectTransfer.c:asn_PER_type_directTransfer_ies_constr_2" true false 16 16 0 65535;
  Per "src/rua/RUA_DirectTransfer.c:asn_PER_memb_directTransfer_ies_constr_2" true false 16 16 0 65535;
  Per "src/rua/RUA_Disconnect.c:asn_PER_type_disconnect_ies_constr_2" true false 16 16 0 65535;
  Per "src/rua/RUA_Disconnect.c:asn_PER_memb_disconnect_ies_constr_2" true false 16 16 0 65535;
  Per "src/rua/RUA_ErrorIndication.c:asn_PER_type_errorIndication_ies_constr_2" true false 16 16 0 65535;
  Per "src/rua/RUA_ErrorIndication.c:asn_PER_memb_errorIndication_ies_constr_2" true false 16 16 0 65535;
  Per "src/rua/RUA_Establishment-Cause.c:asn_PER_type_RUA_Establishment_Cause_constr_1" false true 1 1 0 1;
  Per "src/rua/RUA_Gsm-map-IDNNS.c:asn_PER_type_routingbasis_constr_2" false false 3 3 0 7;
  Per "src/rua/RUA_IE-Extensions.c:asn_PER_type_RUA_IE_Extensions_constr_1" true false 16 16 1 65535;
  Per "src/rua/RUA_IntraDomainNasNodeSelector.c:asn_PER_type_cn_Type_constr_4" false false 1 1 0 1;
  Per "src/rua/RUA_IntraDomainNasNodeSelector.c:asn_PER_memb_futurecoding_constr_8" true false 0 0 15 15;
  Per "src/rua/RUA_IntraDomainNasNodeSelector.c:asn_PER_type_version_constr_2" false false 1 1 0 1;
  Per "src/rua/RUA_Presence.c:asn_PER_type_RUA_Presence_constr_1" false false 2 2 0 2;
  Per "src/rua/RUA_PrivateIE-ID.c:asn_PER_memb_local_constr_2" false false 16 16 0 65535;
  Per "src/rua/RUA_PrivateIE-ID.c:asn_PER_type_RUA_PrivateIE_ID_constr_1" false false 1 1 0 1;
  Per "src/rua/RUA_PrivateMessage.c:asn_PER_type_privateMessage_ies_constr_2" true false 16 16 0 65535;
  Per "src/rua/RUA_PrivateMessage.c:asn_PER_memb_privateMessage_ies_constr_2" true false 16 16 0 65535;
  Per "src/rua/RUA_ProcedureCode.c:asn_PER_type_RUA_ProcedureCode_constr_1" false false 8 8 0 255;
  Per "src/rua/RUA_ProtocolIE-ID.c:asn_PER_type_RUA_ProtocolIE_ID_constr_1" false false 16 16 0 65535;
  Per "src/rua/RUA_RUA-PDU.c:asn_PER_type_RUA_RUA_PDU_constr_1" false true 2 2 0 2;
  Per "src/rua/RUA_RoutingParameter.c:asn_PER_type_RUA_RoutingParameter_constr_1" true false 0 0 10 10;
  Per "src/rua/RUA_TriggeringMessage.c:asn_PER_type_RUA_TriggeringMessage_constr_1" false false 2 2 0 2;
  Per "src/rua/RUA_TypeOfError.c:asn_PER_type_RUA_TypeOfError_constr_1" false true 1 1 0 1;
  Per "src/hnbap/HNBAP_Access-stratum-release-indicator.c:asn_PER_type_HNBAP_Access_stratum_release_indicator_constr_1" false true 3 3 0 5;
  Per "src/hnbap/HNBAP_AccessResult.c:asn_PER_type_HNBAP_AccessResult_constr_1" false true 1 1 0 1;
  Per "src/hnbap/HNBAP_AdditionalNeighbourInfoList.c:asn_PER_type_HNBAP_AdditionalNeighbourInfoList_constr_1" true false 7 7 1 128;
  Per "src/hnbap/HNBAP_AltitudeAndDirection.c:asn_PER_type_directionOfAltitude_constr_2" false false 1 1 0 1;
  Per "src/hnbap/HNBAP_AltitudeAndDirection.c:asn_PER_memb_altitude_constr_5" false false 15 15 0 32767;
  Per "src/hnbap/HNBAP_BackoffTimer.c:asn_PER_type_HNBAP_BackoffTimer_constr_1" false false 12 12 0 3600;
  Per "src/hnbap/HNBAP_BindingID.c:asn_PER_type_HNBAP_BindingID_constr_1" true true 2 2 1 4;
  Per "src/hnbap/HNBAP_CELL-FACHMobilitySupport.c:asn_PER_type_HNBAP_CELL_FACHMobilitySupport_constr_1" false true 0 0 0 0;
  Per "src/hnbap/HNBAP_CI.c:asn_PER_type_HNBAP_CI_constr_1" true false 0 0 2 2;
  Per "src/hnbap/HNBAP_CN-DomainIndicator.c:asn_PER_type_HNBAP_CN_DomainIndicator_constr_1" false false 1 1 0 1;
  Per "src/hnbap/HNBAP_CSG-Capability.c:asn_PER_type_HNBAP_CSG_Capability_constr_1" false true 1 1 0 1;
  Per "src/hnbap/HNBAP_CSG-ID.c:asn_PER_type_HNBAP_CSG_ID_constr_1" true false 0 0 27 27;
  Per "src/hnbap/HNBAP_CSGMembershipStatus.c:asn_PER_type_HNBAP_CSGMembershipStatus_constr_1" false true 1 1 0 1;
  Per "src/hnbap/HNBAP_CSGMembershipUpdate.c:asn_PER_type_csgMembershipUpdate_ies_constr_2" true false 16 16 0 65535;
  Per "src/hnbap/HNBAP_CSGMembershipUpdate.c:asn_PER_memb_csgMembershipUpdate_ies_constr_2" true false 16 16 0 65535;
  Per "src/hnbap/HNBAP_Cause.c:asn_PER_type_HNBAP_Cause_constr_1" false true 2 2 0 3;
  Per "src/hnbap/HNBAP_CauseMisc.c:asn_PER_type_HNBAP_CauseMisc_constr_1" false true 2 2 0 3;
  Per "src/hnbap/HNBAP_CauseProtocol.c:asn_PER_type_HNBAP_CauseProtocol_constr_1" false true 3 3 0 6;
  Per "src/hnbap/HNBAP_CauseRadioNetwork.c:asn_PER_type_HNBAP_CauseRadioNetwork_constr_1" false true 4 4 0 13;
  Per "src/hnbap/HNBAP_CauseTransport.c:asn_PER_type_HNBAP_CauseTransport_constr_1" false true 1 1 0 1;
  Per "src/hnbap/HNBAP_CellIdentity.c:asn_PER_type_HNBAP_CellIdentity_constr_1" true false 0 0 28 28;
  Per "src/hnbap/HNBAP_ConfigurationInformation.c:asn_PER_type_HNBAP_ConfigurationInformation_constr_1" false true 1 1 0 1;
  Per "src/hnbap/HNBAP_Context-ID.c:asn_PER_type_HNBAP_Context_ID_constr_1" true false 0 0 24 24;
  Per "src/hnbap/HNBAP_Criticality.c:asn_PER_type_HNBAP_Criticality_constr_1" false false 2 2 0 2;
  Per "src/hnbap/HNBAP_CriticalityDiagnostics-IE-List.c:asn_PER_type_HNBAP_CriticalityDiagnostics_IE_List_constr_1" true false 8 8 1 256;
  Per "src/hnbap/HNBAP_ESN.c:asn_PER_type_HNBAP_ESN_constr_1" true false 0 0 32 32;
  Per "src/hnbap/HNBAP_ErrorIndication.c:asn_PER_type_errorIndication_ies_constr_2" true false 16 16 0 65535;
  Per "src/hnbap/HNBAP_ErrorIndication.c:asn_PER_memb_errorIndication_ies_constr_2" true false 16 16 0 65535;
  Per "src/hnbap/HNBAP_GTP-TEI.c:asn_PER_type_HNBAP_GTP_TEI_constr_1" true false 0 0 4 4;
  Per "src/hnbap/HNBAP_GeographicalCoordinates.c:asn_PER_type_latitudeSign_constr_2" false false 1 1 0 1;
  Per "src/hnbap/HNBAP_GeographicalCoordinates.c:asn_PER_memb_latitude_constr_5" false false 23 (-1) 0 8388607;
  Per "src/hnbap/HNBAP_GeographicalCoordinates.c:asn_PER_memb_longitude_constr_6" false false 24 (-1) (-8388608) 8388607;
  Per "src/hnbap/HNBAP_HNB-Cell-Access-Mode.c:asn_PER_type_HNBAP_HNB_Cell_Access_Mode_constr_1" false true 2 2 0 2;
  Per "src/hnbap/HNBAP_HNB-GWResponse.c:asn_PER_type_HNBAP_HNB_GWResponse_constr_1" false true 2 2 0 2;
  Per "src/hnbap/HNBAP_HNB-Identity-Info.c:asn_PER_type_HNBAP_HNB_Identity_Info_constr_1" true false 8 8 1 255;
  Per "src/hnbap/HNBAP_HNB-RNL-Identity.c:asn_PER_type_HNBAP_HNB_RNL_Identity_constr_1" false true 0 0 0 0;
  Per "src/hnbap/HNBAP_HNBAP-PDU.c:asn_PER_type_HNBAP_HNBAP_PDU_constr_1" false true 2 2 0 2;
  Per "src/hnbap/HNBAP_HNBCapacity.c:asn_PER_type_HNBAP_HNBCapacity_constr_1" false false 10 10 0 1000;
  Per "src/hnbap/HNBAP_HNBConfigTransferRequest.c:asn_PER_type_hnbConfigTransferRequest_ies_constr_2" true false 16 16 0 65535;
  Per "src/hnbap/HNBAP_HNBConfigTransferRequest.c:asn_PER_memb_hnbConfigTransferRequest_ies_constr_2" true false 16 16 0 65535;
  Per "src/hnbap/HNBAP_HNBConfigTransferResponse.c:asn_PER_type_hnbConfigTransferResponse_ies_constr_2" true false 16 16 0 65535;
  Per "src/hnbap/HNBAP_HNBConfigTransferResponse.c:asn_PER_memb_hnbConfigTransferResponse_ies_constr_2" true false 16 16 0 65535;
  Per "src/hnbap/HNBAP_HNBDe-Register.c:asn_PER_type_hnbDe_Register_ies_constr_2" true false 16 16 0 65535;
  Per "src/hnbap/HNBAP_HNBDe-Register.c:asn_PER_memb_hnbDe_Register_ies_constr_2" true false 16 16 0 65535;
  Per "src/hnbap/HNBAP_HNBRegisterAccept.c:asn_PER_type_hnbRegisterAccept_ies_constr_2" true false 16 16 0 65535;
  Per "src/hnbap/HNBAP_HNBRegisterAccept.c:asn_PER_memb_hnbRegisterAccept_ies_constr_2" true false 16 16 0 65535;
  Per "src/hnbap/HNBAP_HNBRegisterReject.c:asn_PER_type_hnbRegisterReject_ies_constr_2" true false 16 16 0 65535;
  Per "src/hnbap/HNBAP_HNBRegisterReject.c:asn_PER_memb_hnbRegisterReject_ies_constr_2" true false 16 16 0 65535;
  Per "src/hnbap/HNBAP_HNBRegisterRequest.c:asn_PER_type_hnbRegisterRequest_ies_constr_2" true false 16 16 0 65535;
  Per "src/hnbap/HNBAP_HNBRegisterRequest.c:asn_PER_memb_hnbRegisterRequest_ies_constr_2" true false 16 16 0 65535;
  Per "src/hnbap/HNBAP_IE-Extensions.c:asn_PER_type_HNBAP_IE_Extensions_constr_1" true false 16 16 1 65535;
  Per "src/hnbap/HNBAP_IMEI.c:asn_PER_type_HNBAP_IMEI_constr_1" true false 0 0 60 60;
  Per "src/hnbap/HNBAP_IMSI.c:asn_PER_type_HNBAP_IMSI_constr_1" true false 3 3 3 8;
  Per "src/hnbap/HNBAP_IMSIDS41.c:asn_PER_type_HNBAP_IMSIDS41_constr_1" true false 2 2 5 7;
  Per "src/hnbap/HNBAP_IP-Address.c:asn_PER_type_ipaddress_constr_2" false true 1 1 0 1;
  Per "src/hnbap/HNBAP_Ipv4Address.c:asn_PER_type_HNBAP_Ipv4Address_constr_1" true false 0 0 4 4;
  Per "src/hnbap/HNBAP_Ipv6Address.c:asn_PER_type_HNBAP_Ipv6Address_constr_1" true false 0 0 16 16;
  Per "src/hnbap/HNBAP_Iurh-Signalling-TNL-AddressList.c:asn_PER_type_HNBAP_Iurh_Signalling_TNL_AddressList_constr_1" true false 2 2 1 3;
  Per "src/hnbap/HNBAP_LAC.c:asn_PER_type_HNBAP_LAC_constr_1" true false 0 0 2 2;
  Per "src/hnbap/HNBAP_MacroCellID.c:asn_PER_type_HNBAP_MacroCellID_constr_1" false true 1 1 0 1;
  Per "src/hnbap/HNBAP_MuxPortNumber.c:asn_PER_type_HNBAP_MuxPortNumber_constr_1" false false 16 16 1024 65535;
  Per "src/hnbap/HNBAP_NeighbourCellIdentityList.c:asn_PER_type_HNBAP_NeighbourCellIdentityList_constr_1" true false 8 8 0 128;
  Per "src/hnbap/HNBAP_NeighbourIdentity.c:asn_PER_type_HNBAP_NeighbourIdentity_constr_1" false true 1 1 0 1;
  Per "src/hnbap/HNBAP_NeighbourInfoList.c:asn_PER_type_HNBAP_NeighbourInfoList_constr_1" true false 5 5 1 32;
  Per "src/hnbap/HNBAP_NeighbourInfoRequestList.c:asn_PER_type_HNBAP_NeighbourInfoRequestList_constr_1" true false 5 5 1 32;
  Per "src/hnbap/HNBAP_PLMNidentity.c:asn_PER_type_HNBAP_PLMNidentity_constr_1" true false 0 0 3 3;
  Per "src/hnbap/HNBAP_PSC.c:asn_PER_type_HNBAP_PSC_constr_1" true false 0 0 9 9;
  Per "src/hnbap/HNBAP_PTMSI.c:asn_PER_type_HNBAP_PTMSI_constr_1" true false 0 0 32 32;
  Per "src/hnbap/HNBAP_Presence.c:asn_PER_type_HNBAP_Presence_constr_1" false false 2 2 0 2;
  Per "src/hnbap/HNBAP_PrivateIE-ID.c:asn_PER_memb_local_constr_2" false false 16 16 0 65535;
  Per "src/hnbap/HNBAP_PrivateIE-ID.c:asn_PER_type_HNBAP_PrivateIE_ID_constr_1" false false 1 1 0 1;
  Per "src/hnbap/HNBAP_PrivateMessage.c:asn_PER_type_privateMessage_ies_constr_2" true false 16 16 0 65535;
  Per "src/hnbap/HNBAP_PrivateMessage.c:asn_PER_memb_privateMessage_ies_constr_2" true false 16 16 0 65535;
  Per "src/hnbap/HNBAP_ProcedureCode.c:asn_PER_type_HNBAP_ProcedureCode_constr_1" false false 8 8 0 255;
  Per "src/hnbap/HNBAP_ProtocolIE-ID.c:asn_PER_type_HNBAP_ProtocolIE_ID_constr_1" false false 16 16 0 65535;
  Per "src/hnbap/HNBAP_RAB-ID.c:asn_PER_type_HNBAP_RAB_ID_constr_1" true false 0 0 8 8;
  Per "src/hnbap/HNBAP_RABList.c:asn_PER_type_HNBAP_RABList_constr_1" true false 8 8 1 256;
  Per "src/hnbap/HNBAP_RAC.c:asn_PER_type_HNBAP_RAC_constr_1" true false 0 0 1 1;
  Per "src/hnbap/HNBAP_RNC-ID.c:asn_PER_type_HNBAP_RNC_ID_constr_1" false false 16 16 0 65535;
  Per "src/hnbap/HNBAP_Registration-Cause.c:asn_PER_type_HNBAP_Registration_Cause_constr_1" false true 1 1 0 1;
  Per "src/hnbap/HNBAP_RelocationComplete.c:asn_PER_type_relocationComplete_ies_constr_2" true false 16 16 0 65535;
  Per "src/hnbap/HNBAP_RelocationComplete.c:asn_PER_memb_relocationComplete_ies_constr_2" true false 16 16 0 65535;
  Per "src/hnbap/HNBAP_S-RNTIPrefix.c:asn_PER_type_HNBAP_S_RNTIPrefix_constr_1" true true 4 4 1 16;
  Per "src/hnbap/HNBAP_SAC.c:asn_PER_type_HNBAP_SAC_constr_1" true false 0 0 2 2;
  Per "src/hnbap/HNBAP_TMSIDS41.c:asn_PER_type_HNBAP_TMSIDS41_constr_1" true false 4 4 2 17;
  Per "src/hnbap/HNBAP_TMSILAI.c:asn_PER_memb_tMSI_constr_2" true false 0 0 32 32;
  Per "src/hnbap/HNBAP_TNLUpdateFailure.c:asn_PER_type_tnlUpdateFailure_ies_constr_2" true false 16 16 0 65535;
  Per "src/hnbap/HNBAP_TNLUpdateFailure.c:asn_PER_memb_tnlUpdateFailure_ies_constr_2" true false 16 16 0 65535;
  Per "src/hnbap/HNBAP_TNLUpdateRequest.c:asn_PER_type_tnlUpdateRequest_ies_constr_2" true false 16 16 0 65535;
  Per "src/hnbap/HNBAP_TNLUpdateRequest.c:asn_PER_memb_tnlUpdateRequest_ies_constr_2" true false 16 16 0 65535;
  Per "src/hnbap/HNBAP_TNLUpdateResponse.c:asn_PER_type_tnlUpdateResponse_ies_constr_2" true false 16 16 0 65535;
  Per "src/hnbap/HNBAP_TNLUpdateResponse.c:asn_PER_memb_tnlUpdateResponse_ies_constr_2" true false 16 16 0 65535;
  Per "src/hnbap/HNBAP_TransportInfo.c:asn_PER_type_transportAssociation_constr_3" false true 1 1 0 1;
  Per "src/hnbap/HNBAP_TransportLayerAddress.c:asn_PER_type_HNBAP_TransportLayerAddress_constr_1" true true 8 8 1 160;
  Per "src/hnbap/HNBAP_TriggeringMessage.c:asn_PER_type_HNBAP_TriggeringMessage_constr_1" false false 2 2 0 2;
  Per "src/hnbap/HNBAP_TypeOfError.c:asn_PER_type_HNBAP_TypeOfError_constr_1" false true 1 1 0 1;
  Per "src/hnbap/HNBAP_U-RNTI.c:asn_PER_type_HNBAP_U_RNTI_constr_1" true false 0 0 32 32;
  Per "src/hnbap/HNBAP_U-RNTIQueryRequest.c:asn_PER_type_u_RNTIQueryRequest_ies_constr_2" true false 16 16 0 65535;
  Per "src/hnbap/HNBAP_U-RNTIQueryRequest.c:asn_PER_memb_u_RNTIQueryRequest_ies_constr_2" true false 16 16 0 65535;
  Per "src/hnbap/HNBAP_U-RNTIQueryResponse.c:asn_PER_type_u_RNTIQueryResponse_ies_constr_2" true false 16 16 0 65535;
  Per "src/hnbap/HNBAP_U-RNTIQueryResponse.c:asn_PER_memb_u_RNTIQueryResponse_ies_constr_2" true false 16 16 0 65535;
  Per "src/hnbap/HNBAP_UDP-Port-Number.c:asn_PER_type_HNBAP_UDP_Port_Number_constr_1" true false 0 0 2 2;
  Per "src/hnbap/HNBAP_UE-Identity.c:asn_PER_type_HNBAP_UE_Identity_constr_1" false true 3 3 0 7;
  Per "src/hnbap/HNBAP_UEDe-Register.c:asn_PER_type_ueDe_Register_ies_constr_2" true false 16 16 0 65535;
  Per "src/hnbap/HNBAP_UEDe-Register.c:asn_PER_memb_ueDe_Register_ies_constr_2" true false 16 16 0 65535;
  Per "src/hnbap/HNBAP_UERegisterAccept.c:asn_PER_type_ueRegisterAccept_ies_constr_2" true false 16 16 0 65535;
  Per "src/hnbap/HNBAP_UERegisterAccept.c:asn_PER_memb_ueRegisterAccept_ies_constr_2" true false 16 16 0 65535;
  Per "src/hnbap/HNBAP_UERegisterReject.c:asn_PER_type_ueRegisterReject_ies_constr_2" true false 16 16 0 65535;
  Per "src/hnbap/HNBAP_UERegisterReject.c:asn_PER_memb_ueRegisterReject_ies_constr_2" true false 16 16 0 65535;
  Per "src/hnbap/HNBAP_UERegisterRequest.c:asn_PER_type_ueRegisterRequest_ies_constr_2" true false 16 16 0 65535;
  Per "src/hnbap/HNBAP_UERegisterRequest.c:asn_PER_memb_ueRegisterRequest_ies_constr_2" true false 16 16 0 65535;
  Per "src/hnbap/HNBAP_URAIdentity.c:asn_PER_type_HNBAP_URAIdentity_constr_1" false false 16 16 0 65535;
  Per "src/hnbap/HNBAP_URAIdentityList.c:asn_PER_type_HNBAP_URAIdentityList_constr_1" true false 4 4 0 8;
  Per "src/hnbap/HNBAP_UnknownU-RNTIIndication.c:asn_PER_type_HNBAP_UnknownU_RNTIIndication_constr_1" false true 0 0 0 0;
  Per "src/hnbap/HNBAP_Update-cause.c:asn_PER_type_HNBAP_Update_cause_constr_1" false true 0 0 0 0;
  Per "src/sabp/SABP_Available-Bandwidth.c:asn_PER_type_SABP_Available_Bandwidth_constr_1" false false 15 15 0 20480;
  Per "src/sabp/SABP_Broadcast-Message-Content-Validity-Indicator.c:asn_PER_type_SABP_Broadcast_Message_Content_Validity_Indicator_constr_1" false true 0 0 0 0;
  Per "src/sabp/SABP_Broadcast-Message-Content.c:asn_PER_type_SABP_Broadcast_Message_Content_constr_1" true false 14 14 1 9968;
  Per "src/sabp/SABP_Category.c:asn_PER_type_SABP_Category_constr_1" false true 2 2 0 3;
  Per "src/sabp/SABP_Cause.c:asn_PER_type_SABP_Cause_constr_1" false false 8 8 0 255;
  Per "src/sabp/SABP_Criticality.c:asn_PER_type_SABP_Criticality_constr_1" false false 2 2 0 2;
  Per "src/sabp/SABP_CriticalityDiagnostics-IE-List.c:asn_PER_type_SABP_CriticalityDiagnostics_IE_List_constr_1" true false 8 8 1 256;
  Per "src/sabp/SABP_Data-Coding-Scheme.c:asn_PER_type_SABP_Data_Coding_Scheme_constr_1" true false 0 0 8 8;
  Per "src/sabp/SABP_Error-Indication.c:asn_PER_type_error_Indication_ies_constr_2" true false 16 16 0 65535;
  Per "src/sabp/SABP_Error-Indication.c:asn_PER_memb_error_Indication_ies_constr_2" true false 16 16 0 65535;
  Per "src/sabp/SABP_Failure-List.c:asn_PER_type_SABP_Failure_List_constr_1" true false 16 16 1 65535;
  Per "src/sabp/SABP_Failure.c:asn_PER_type_failure_ies_constr_2" true false 16 16 0 65535;
  Per "src/sabp/SABP_Failure.c:asn_PER_memb_failure_ies_constr_2" true false 16 16 0 65535;
  Per "src/sabp/SABP_IE-Extensions.c:asn_PER_type_SABP_IE_Extensions_constr_1" true false 16 16 1 65535;
  Per "src/sabp/SABP_Kill-Complete.c:asn_PER_type_kill_Complete_ies_constr_2" true false 16 16 0 65535;
  Per "src/sabp/SABP_Kill-Complete.c:asn_PER_memb_kill_Complete_ies_constr_2" true false 16 16 0 65535;
  Per "src/sabp/SABP_Kill-Failure.c:asn_PER_type_kill_Failure_ies_constr_2" true false 16 16 0 65535;
  Per "src/sabp/SABP_Kill-Failure.c:asn_PER_memb_kill_Failure_ies_constr_2" true false 16 16 0 65535;
  Per "src/sabp/SABP_Kill.c:asn_PER_type_kill_ies_constr_2" true false 16 16 0 65535;
  Per "src/sabp/SABP_Kill.c:asn_PER_memb_kill_ies_constr_2" true false 16 16 0 65535;
  Per "src/sabp/SABP_Load-Query-Complete.c:asn_PER_type_load_Query_Complete_ies_constr_2" true false 16 16 0 65535;
  Per "src/sabp/SABP_Load-Query-Complete.c:asn_PER_memb_load_Query_Complete_ies_constr_2" true false 16 16 0 65535;
  Per "src/sabp/SABP_Load-Query-Failure.c:asn_PER_type_load_Query_Failure_ies_constr_2" true false 16 16 0 65535;
  Per "src/sabp/SABP_Load-Query-Failure.c:asn_PER_memb_load_Query_Failure_ies_constr_2" true false 16 16 0 65535;
  Per "src/sabp/SABP_Load-Query.c:asn_PER_type_load_Query_ies_constr_2" true false 16 16 0 65535;
  Per "src/sabp/SABP_Load-Query.c:asn_PER_memb_load_Query_ies_constr_2" true false 16 16 0 65535;
  Per "src/sabp/SABP_Message-Identifier.c:asn_PER_type_SABP_Message_Identifier_constr_1" true false 0 0 16 16;
  Per "src/sabp/SABP_Message-Status-Query-Complete.c:asn_PER_type_message_Status_Query_Complete_ies_constr_2" true false 16 16 0 65535;
  Per "src/sabp/SABP_Message-Status-Query-Complete.c:asn_PER_memb_message_Status_Query_Complete_ies_constr_2" true false 16 16 0 65535;
  Per "src/sabp/SABP_Message-Status-Query-Failure.c:asn_PER_type_message_Status_Query_Failure_ies_constr_2" true false 16 16 0 65535;
  Per "src/sabp/SABP_Message-Status-Query-Failure.c:asn_PER_memb_message_Status_Query_Failure_ies_constr_2" true false 16 16 0 65535;
  Per "src/sabp/SABP_Message-Status-Query.c:asn_PER_type_message_Status_Query_ies_constr_2" true false 16 16 0 65535;
  Per "src/sabp/SABP_Message-Status-Query.c:asn_PER_memb_message_Status_Query_ies_constr_2" true false 16 16 0 65535;
  Per "src/sabp/SABP_MessageStructure.c:asn_PER_type_SABP_MessageStructure_constr_1" true false 8 8 1 256;
  Per "src/sabp/SABP_Number-Of-Broadcasts-Completed-Info.c:asn_PER_type_SABP_Number_Of_Broadcasts_Completed_Info_constr_1" false true 1 1 0 1;
  Per "src/sabp/SABP_Number-of-Broadcasts-Completed-List-Item.c:asn_PER_memb_number_of_broadcasts_completed_constr_3" false false 16 16 0 65535;
  Per "src/sabp/SABP_Number-of-Broadcasts-Completed-List.c:asn_PER_type_SABP_Number_of_Broadcasts_Completed_List_constr_1" true false 16 16 1 65535;
  Per "src/sabp/SABP_Number-of-Broadcasts-Requested.c:asn_PER_type_SABP_Number_of_Broadcasts_Requested_constr_1" false false 16 16 0 65535;
  Per "src/sabp/SABP_Paging-ETWS-Indicator.c:asn_PER_type_SABP_Paging_ETWS_Indicator_constr_1" false true 0 0 0 0;
  Per "src/sabp/SABP_Presence.c:asn_PER_type_SABP_Presence_constr_1" false false 2 2 0 2;
  Per "src/sabp/SABP_ProcedureCode.c:asn_PER_type_SABP_ProcedureCode_constr_1" false false 8 8 0 255;
  Per "src/sabp/SABP_ProtocolExtensionID.c:asn_PER_type_SABP_ProtocolExtensionID_constr_1" false false 16 16 0 65535;
  Per "src/sabp/SABP_ProtocolIE-ID.c:asn_PER_type_SABP_ProtocolIE_ID_constr_1" false false 16 16 0 65535;
  Per "src/sabp/SABP_Radio-Resource-Loading-List.c:asn_PER_type_SABP_Radio_Resource_Loading_List_constr_1" true false 16 16 1 65535;
  Per "src/sabp/SABP_Recovery-Indication.c:asn_PER_type_SABP_Recovery_Indication_constr_1" false false 1 1 0 1;
  Per "src/sabp/SABP_Repetition-Period.c:asn_PER_type_SABP_Repetition_Period_constr_1" false false 12 12 1 4096;
  Per "src/sabp/SABP_RepetitionNumber0.c:asn_PER_type_SABP_RepetitionNumber0_constr_1" false false 8 8 0 255;
  Per "src/sabp/SABP_RepetitionNumber1.c:asn_PER_type_SABP_RepetitionNumber1_constr_1" false false 8 8 1 256;
  Per "src/sabp/SABP_Reset-Complete.c:asn_PER_type_reset_Complete_ies_constr_2" true false 16 16 0 65535;
  Per "src/sabp/SABP_Reset-Complete.c:asn_PER_memb_reset_Complete_ies_constr_2" true false 16 16 0 65535;
  Per "src/sabp/SABP_Reset-Failure.c:asn_PER_type_reset_Failure_ies_constr_2" true false 16 16 0 65535;
  Per "src/sabp/SABP_Reset-Failure.c:asn_PER_memb_reset_Failure_ies_constr_2" true false 16 16 0 65535;
  Per "src/sabp/SABP_Reset.c:asn_PER_type_reset_ies_constr_2" true false 16 16 0 65535;
  Per "src/sabp/SABP_Reset.c:asn_PER_memb_reset_ies_constr_2" true false 16 16 0 65535;
  Per "src/sabp/SABP_Restart.c:asn_PER_type_restart_ies_constr_2" true false 16 16 0 65535;
  Per "src/sabp/SABP_Restart.c:asn_PER_memb_restart_ies_constr_2" true false 16 16 0 65535;
  Per "src/sabp/SABP_SABP-PDU.c:asn_PER_type_SABP_SABP_PDU_constr_1" false true 2 2 0 2;
  Per "src/sabp/SABP_Serial-Number.c:asn_PER_type_SABP_Serial_Number_constr_1" true false 0 0 16 16;
  Per "src/sabp/SABP_Service-Area-Identifier.c:asn_PER_memb_pLMNidentity_constr_2" true false 0 0 3 3;
  Per "src/sabp/SABP_Service-Area-Identifier.c:asn_PER_memb_lac_constr_3" true false 0 0 2 2;
  Per "src/sabp/SABP_Service-Area-Identifier.c:asn_PER_memb_sac_constr_4" true false 0 0 2 2;
  Per "src/sabp/SABP_Service-Areas-List.c:asn_PER_type_SABP_Service_Areas_List_constr_1" true false 16 16 1 65535;
  Per "src/sabp/SABP_TriggeringMessage.c:asn_PER_type_SABP_TriggeringMessage_constr_1" false false 2 2 0 3;
  Per "src/sabp/SABP_TypeOfError.c:asn_PER_type_SABP_TypeOfError_constr_1" false true 1 1 0 1;
  Per "src/sabp/SABP_Warning-Type.c:asn_PER_type_SABP_Warning_Type_constr_1" true false 0 0 2 2;
  Per "src/sabp/SABP_WarningSecurityInfo.c:asn_PER_type_SABP_WarningSecurityInfo_constr_1" true false 0 0 50 50;
  Per "src/sabp/SABP_Write-Replace-Complete.c:asn_PER_type_write_Replace_Complete_ies_constr_2" true false 16 16 0 65535;
  Per "src/sabp/SABP_Write-Replace-Complete.c:asn_PER_memb_write_Replace_Complete_ies_constr_2" true false 16 16 0 65535;
  Per "src/sabp/SABP_Write-Replace-Failure.c:asn_PER_type_write_Replace_Failure_ies_constr_2" true false 16 16 0 65535;
  Per "src/sabp/SABP_Write-Replace-Failure.c:asn_PER_memb_write_Replace_Failure_ies_constr_2" true false 16 16 0 65535;
  Per "src/sabp/SABP_Write-Replace.c:asn_PER_type_write_Replace_ies_constr_2" true false 16 16 0 65535;
  Per "src/sabp/SABP_Write-Replace.c:asn_PER_memb_write_Replace_ies_constr_2" true false 16 16 0 65535 ].
