(* Generated text: names in the sources, as written there.  What asn1c generated
   (include/osmocom/*/*.h): the types, the member of each message that is the list of its
   IEs with the type of its elements, and the numbers of IEs and criticalities.  What is
   written by hand (src/*.c, tests/*.c): the members and flags of the structures
   asn1tostruct.py writes, its functions, and the switch statements of the receive paths. *)
From Verif Require Import Base.
From Coq Require Import String.
Local Open Scope string_scope.

(* include/osmocom/ranap/RANAP_*.h: typedef ... *)
Definition ranap_types : list string :=
  [ "RANAP_APN_t"; "RANAP_AccuracyFulfilmentIndicator_t"; "RANAP_AllocationOrRetentionPriority_t";
    "RANAP_Alt_RAB_Parameter_ExtendedGuaranteedBitrateInf_t";
    "RANAP_Alt_RAB_Parameter_ExtendedGuaranteedBitrateList_t";
    "RANAP_Alt_RAB_Parameter_ExtendedGuaranteedBitrates_t"; "RANAP_Alt_RAB_Parameter_ExtendedMaxBitrateInf_t";
    "RANAP_Alt_RAB_Parameter_ExtendedMaxBitrateList_t"; "RANAP_Alt_RAB_Parameter_ExtendedMaxBitrates_t";
    "RANAP_Alt_RAB_Parameter_GuaranteedBitrateInf_t"; "RANAP_Alt_RAB_Parameter_GuaranteedBitrateList_t";
    "RANAP_Alt_RAB_Parameter_GuaranteedBitrateType_t"; "RANAP_Alt_RAB_Parameter_GuaranteedBitrates_t";
    "RANAP_Alt_RAB_Parameter_MaxBitrateInf_t"; "RANAP_Alt_RAB_Parameter_MaxBitrateList_t";
    "RANAP_Alt_RAB_Parameter_MaxBitrateType_t"; "RANAP_Alt_RAB_Parameter_MaxBitrates_t";
    "RANAP_Alt_RAB_Parameter_SupportedGuaranteedBitrateInf_t";
    "RANAP_Alt_RAB_Parameter_SupportedGuaranteedBitrates_t"; "RANAP_Alt_RAB_Parameter_SupportedMaxBitrateInf_t";
    "RANAP_Alt_RAB_Parameter_SupportedMaxBitrates_t"; "RANAP_Alt_RAB_Parameters_t";
    "RANAP_AlternativeRABConfigurationRequest_t"; "RANAP_AreaIdentity_t";
    "RANAP_Ass_RAB_Parameter_ExtendedGuaranteedBitrateList_t"; "RANAP_Ass_RAB_Parameter_ExtendedMaxBitrateList_t";
    "RANAP_Ass_RAB_Parameter_GuaranteedBitrateList_t"; "RANAP_Ass_RAB_Parameter_MaxBitrateList_t";
    "RANAP_Ass_RAB_Parameters_t"; "RANAP_AuthorisedPLMNs_Value_t"; "RANAP_AuthorisedPLMNs_t";
    "RANAP_AuthorisedSNAs_t"; "RANAP_BindingID_t"; "RANAP_BroadcastAssistanceDataDecipheringKeys_t";
    "RANAP_CGI_t"; "RANAP_CI_t"; "RANAP_CNMBMSLinkingInformation_t"; "RANAP_CN_DeactivateTrace_t";
    "RANAP_CN_DomainIndicator_t"; "RANAP_CN_ID_t"; "RANAP_CN_InvokeTrace_t"; "RANAP_CSFB_Information_t";
    "RANAP_CSG_Id_List_t"; "RANAP_CSG_Id_t"; "RANAP_CSG_Membership_Status_t"; "RANAP_CauseMisc_t";
    "RANAP_CauseNAS_t"; "RANAP_CauseNon_Standard_t"; "RANAP_CauseProtocol_t";
    "RANAP_CauseRadioNetworkExtension_t"; "RANAP_CauseRadioNetwork_t"; "RANAP_CauseTransmissionNetwork_t";
    "RANAP_Cause_t"; "RANAP_CellBased_t"; "RANAP_CellIdList_t"; "RANAP_CellLoadInformationGroup_t";
    "RANAP_CellLoadInformation_t"; "RANAP_CellType_t"; "RANAP_Cell_Access_Mode_t";
    "RANAP_Cell_Capacity_Class_Value_t"; "RANAP_Cell_Id_t"; "RANAP_ChosenEncryptionAlgorithm_t";
    "RANAP_ChosenIntegrityProtectionAlgorithm_t"; "RANAP_ClassmarkInformation2_t";
    "RANAP_ClassmarkInformation3_t"; "RANAP_ClientType_t"; "RANAP_CommonID_t"; "RANAP_Correlation_ID_t";
    "RANAP_CriticalityDiagnostics_IE_List_Value_t"; "RANAP_CriticalityDiagnostics_IE_List_t";
    "RANAP_CriticalityDiagnostics_t"; "RANAP_Criticality_t"; "RANAP_DCH_ID_t";
    "RANAP_DL_GTP_PDU_SequenceNumber_t"; "RANAP_DL_N_PDU_SequenceNumber_t"; "RANAP_DRX_CycleLengthCoefficient_t";
    "RANAP_DSCH_ID_t"; "RANAP_D_RNTI_t"; "RANAP_DataPDUType_t"; "RANAP_DataVolumeList_Value_t";
    "RANAP_DataVolumeList_t"; "RANAP_DataVolumeReference_t"; "RANAP_DataVolumeReportList_t";
    "RANAP_DataVolumeReportRequest_t"; "RANAP_DataVolumeReport_t"; "RANAP_DataVolumeReportingIndication_t";
    "RANAP_DeliveryOfErroneousSDU_t"; "RANAP_DeliveryOrder_t"; "RANAP_DeltaRAListofIdleModeUEs_t";
    "RANAP_DirectInformationTransfer_t"; "RANAP_DirectReportingIndicator_t";
    "RANAP_DirectTransferInformationItem_RANAP_RelocInf_t"; "RANAP_DirectTransfer_IE_ContainerList_t";
    "RANAP_DirectTransfer_t"; "RANAP_EARFCN_Extended_t"; "RANAP_ENB_ID_t"; "RANAP_EUTRANFrequencies_Value_t";
    "RANAP_EUTRANFrequencies_t"; "RANAP_E_DCH_MAC_d_Flow_ID_t"; "RANAP_E_UTRAN_Service_Handover_t";
    "RANAP_EncryptionAlgorithm_t"; "RANAP_EncryptionInformation_t"; "RANAP_EncryptionKey_t";
    "RANAP_End_Of_CSFB_t"; "RANAP_EnhancedRelocationCompleteConfirm_t";
    "RANAP_EnhancedRelocationCompleteFailure_t"; "RANAP_EnhancedRelocationCompleteRequest_t";
    "RANAP_EnhancedRelocationCompleteResponse_t"; "RANAP_EquipmentsToBeTraced_t"; "RANAP_ErrorIndication_t";
    "RANAP_Event1F_Parameters_t"; "RANAP_Event1I_Parameters_t"; "RANAP_Event_t";
    "RANAP_ExtendedGuaranteedBitrate_t"; "RANAP_ExtendedMaxBitrate_t"; "RANAP_ExtendedRNC_ID_t";
    "RANAP_ForwardSRNS_Context_t"; "RANAP_ForwardingIndication_t"; "RANAP_FrameSequenceNumber_t";
    "RANAP_FrequenceLayerConvergenceFlag_t"; "RANAP_GANSS_PositioningDataSet_t";
    "RANAP_GANSS_PositioningMethodAndUsage_t"; "RANAP_GA_AltitudeAndDirection_t"; "RANAP_GA_EllipsoidArc_t";
    "RANAP_GA_PointWithAltitudeAndUncertaintyEllipsoid_t"; "RANAP_GA_PointWithAltitude_t";
    "RANAP_GA_PointWithUnCertaintyEllipse_t"; "RANAP_GA_PointWithUnCertainty_t"; "RANAP_GA_Point_t";
    "RANAP_GA_Polygon_Value_t"; "RANAP_GA_Polygon_t"; "RANAP_GA_UncertaintyEllipse_t";
    "RANAP_GERAN_BSC_Container_t"; "RANAP_GERAN_Cell_ID_t"; "RANAP_GERAN_Classmark_t";
    "RANAP_GERAN_Iumode_RAB_Failed_RABAssgntResponse_Item_t";
    "RANAP_GERAN_Iumode_RAB_Failed_RABAssgntResponse_List_t"; "RANAP_GTP_TEI_t"; "RANAP_GeographicalArea_t";
    "RANAP_GeographicalCoordinates_t"; "RANAP_GlobalCN_ID_t"; "RANAP_GlobalRNC_ID_t"; "RANAP_GuaranteedBitrate_t";
    "RANAP_HS_DSCH_MAC_d_Flow_ID_t"; "RANAP_HigherBitratesThan16MbpsFlag_t"; "RANAP_HorizontalSpeedAndBearing_t";
    "RANAP_HorizontalVelocityWithUncertainty_t"; "RANAP_HorizontalVelocity_t";
    "RANAP_HorizontalWithVerticalVelocityAndUncertainty_t"; "RANAP_HorizontalWithVerticalVelocity_t";
    "RANAP_IE_Extensions_t"; "RANAP_IE_t"; "RANAP_IMEIGroup_t"; "RANAP_IMEIList_t"; "RANAP_IMEISVGroup_t";
    "RANAP_IMEISVList_t"; "RANAP_IMEISV_t"; "RANAP_IMEI_t"; "RANAP_IMSI_t"; "RANAP_IPMulticastAddress_t";
    "RANAP_IRAT_Measurement_Configuration_t"; "RANAP_IRATmeasurementParameters_t"; "RANAP_ImmediateMDT_t";
    "RANAP_IncludeVelocity_t"; "RANAP_InformationExchangeID_t"; "RANAP_InformationExchangeType_t";
    "RANAP_InformationRequestType_t"; "RANAP_InformationRequested_t"; "RANAP_InformationTransferConfirmation_t";
    "RANAP_InformationTransferFailure_t"; "RANAP_InformationTransferID_t";
    "RANAP_InformationTransferIndication_t"; "RANAP_InformationTransferType_t"; "RANAP_InitialUE_Message_t";
    "RANAP_InitiatingMessage_t"; "RANAP_IntegrityProtectionAlgorithm_t"; "RANAP_IntegrityProtectionInformation_t";
    "RANAP_IntegrityProtectionKey_t"; "RANAP_InterSystemInformationTransferType_t";
    "RANAP_InterSystemInformation_TransparentContainer_t"; "RANAP_InterfacesToTraceItem_t";
    "RANAP_IuSigConId_IE_ContainerList_t"; "RANAP_IuSignallingConnectionIdentifier_t";
    "RANAP_IuTransportAssociation_t"; "RANAP_Iu_ReleaseCommand_t"; "RANAP_Iu_ReleaseComplete_t";
    "RANAP_Iu_ReleaseRequest_t"; "RANAP_JoinedMBMSBearerService_IEs_Value_t";
    "RANAP_JoinedMBMSBearerService_IEs_t"; "RANAP_KeyStatus_t"; "RANAP_L3_Information_t"; "RANAP_LABased_t";
    "RANAP_LAC_t"; "RANAP_LAI_List_t"; "RANAP_LAI_t"; "RANAP_LAListofIdleModeUEs_t"; "RANAP_LA_LIST_Value_t";
    "RANAP_LA_LIST_t"; "RANAP_LHN_ID_t"; "RANAP_LastKnownServiceArea_t"; "RANAP_LastVisitedUTRANCell_Item_t";
    "RANAP_LeftMBMSBearerService_IEs_Value_t"; "RANAP_LeftMBMSBearerService_IEs_t"; "RANAP_Links_to_log_t";
    "RANAP_ListOF_SNAs_t"; "RANAP_ListOfInterfacesToTrace_t"; "RANAP_LoadValue_t";
    "RANAP_LocationRelatedDataFailure_t"; "RANAP_LocationRelatedDataRequestTypeSpecificToGERANIuMode_t";
    "RANAP_LocationRelatedDataRequestType_t"; "RANAP_LocationRelatedDataRequest_t";
    "RANAP_LocationRelatedDataResponse_t"; "RANAP_LocationReport_t"; "RANAP_LocationReportingControl_t";
    "RANAP_LocationReportingTransferInformation_t"; "RANAP_LoggedMDT_t"; "RANAP_LoggingDuration_t";
    "RANAP_LoggingInterval_t"; "RANAP_M1Report_t"; "RANAP_M2Report_t"; "RANAP_M4Report_t";
    "RANAP_M4_Collection_Parameters_t"; "RANAP_M4_Period_t"; "RANAP_M4_Threshold_t"; "RANAP_M5Report_t";
    "RANAP_M5_Period_t"; "RANAP_M6Report_t"; "RANAP_M6_Period_t"; "RANAP_M7Report_t"; "RANAP_M7_Period_t";
    "RANAP_MBMSBearerServiceType_t"; "RANAP_MBMSCNDe_RegistrationRequest_t";
    "RANAP_MBMSCNDe_RegistrationResponse_t"; "RANAP_MBMSCNDe_Registration_t"; "RANAP_MBMSCountingInformation_t";
    "RANAP_MBMSHCIndicator_t"; "RANAP_MBMSIPMulticastAddressandAPNRequest_t";
    "RANAP_MBMSIPMulticastAddressandAPNlist_t"; "RANAP_MBMSLinkingInformation_t";
    "RANAP_MBMSRABEstablishmentIndication_t"; "RANAP_MBMSRABReleaseFailure_t"; "RANAP_MBMSRABReleaseRequest_t";
    "RANAP_MBMSRABRelease_t"; "RANAP_MBMSRegistrationFailure_t"; "RANAP_MBMSRegistrationRequestType_t";
    "RANAP_MBMSRegistrationRequest_t"; "RANAP_MBMSRegistrationResponse_t"; "RANAP_MBMSServiceArea_t";
    "RANAP_MBMSSessionDuration_t"; "RANAP_MBMSSessionIdentity_t"; "RANAP_MBMSSessionRepetitionNumber_t";
    "RANAP_MBMSSessionStartFailure_t"; "RANAP_MBMSSessionStartResponse_t"; "RANAP_MBMSSessionStart_t";
    "RANAP_MBMSSessionStopResponse_t"; "RANAP_MBMSSessionStop_t"; "RANAP_MBMSSessionUpdateFailure_t";
    "RANAP_MBMSSessionUpdateResponse_t"; "RANAP_MBMSSessionUpdate_t"; "RANAP_MBMSSynchronisationInformation_t";
    "RANAP_MBMSUELinkingRequest_t"; "RANAP_MBMSUELinkingResponse_t"; "RANAP_MBMS_PTP_RAB_ID_t";
    "RANAP_MDTAreaScope_t"; "RANAP_MDTMode_t"; "RANAP_MDT_Activation_t"; "RANAP_MDT_Configuration_t";
    "RANAP_MDT_PLMN_List_t"; "RANAP_MDT_Report_Parameters_t"; "RANAP_MSISDN_t";
    "RANAP_Management_Based_MDT_Allowed_t"; "RANAP_MaxBitrate_t"; "RANAP_MaxSDU_Size_t"; "RANAP_MeasBand_t";
    "RANAP_MeasurementQuantity_t"; "RANAP_MeasurementsToActivate_t"; "RANAP_MessageStructure_Value_t";
    "RANAP_MessageStructure_t"; "RANAP_NAS_PDU_t"; "RANAP_NAS_SequenceNumber_t";
    "RANAP_NAS_SynchronisationIndicator_t"; "RANAP_NRTLoadInformationValue_t";
    "RANAP_NewBSS_To_OldBSS_Information_t"; "RANAP_NewRAListofIdleModeUEs_t"; "RANAP_NonSearchingIndication_t";
    "RANAP_NotEmptyRAListofIdleModeUEs_t"; "RANAP_NumberOfIuInstances_t"; "RANAP_NumberOfSteps_t";
    "RANAP_OMC_ID_t"; "RANAP_Offload_RAB_Parameters_APN_t";
    "RANAP_Offload_RAB_Parameters_ChargingCharacteristics_t"; "RANAP_Offload_RAB_Parameters_t";
    "RANAP_OldBSS_ToNewBSS_Information_t"; "RANAP_Out_Of_UTRAN_t"; "RANAP_Outcome_t"; "RANAP_Overload_t";
    "RANAP_PDP_TypeInformation_extension_t"; "RANAP_PDP_TypeInformation_t"; "RANAP_PDP_Type_extension_t";
    "RANAP_PDP_Type_t"; "RANAP_PDUType14FrameSequenceNumber_t"; "RANAP_PLMNidentity_t";
    "RANAP_PLMNs_in_shared_network_Value_t"; "RANAP_PLMNs_in_shared_network_t"; "RANAP_P_TMSI_t";
    "RANAP_PagingAreaID_t"; "RANAP_PagingCause_t"; "RANAP_Paging_t"; "RANAP_PeriodicLocationInfo_t";
    "RANAP_PeriodicReportingIndicator_t"; "RANAP_PermanentNAS_UE_ID_t"; "RANAP_PermittedEncryptionAlgorithms_t";
    "RANAP_PermittedIntegrityProtectionAlgorithms_t"; "RANAP_Port_Number_t";
    "RANAP_PositionDataSpecificToGERANIuMode_t"; "RANAP_PositionData_t"; "RANAP_PositioningDataDiscriminator_t";
    "RANAP_PositioningDataSet_t"; "RANAP_PositioningMethodAndUsage_t"; "RANAP_PositioningPriority_t";
    "RANAP_Pre_emptionCapability_t"; "RANAP_Pre_emptionVulnerability_t"; "RANAP_Presence_t";
    "RANAP_PriorityLevel_t"; "RANAP_Priority_Class_Indicator_t"; "RANAP_PrivateIE_ID_t"; "RANAP_PrivateMessage_t";
    "RANAP_ProcedureCode_t"; "RANAP_ProtocolError_IE_ContainerList_t"; "RANAP_ProtocolExtensionContainer_t";
    "RANAP_ProtocolExtensionField_t"; "RANAP_ProtocolExtensionID_t"; "RANAP_ProtocolIE_ContainerPair_t";
    "RANAP_ProtocolIE_Container_t"; "RANAP_ProtocolIE_FieldPair_t"; "RANAP_ProtocolIE_ID_t";
    "RANAP_ProvidedData_t"; "RANAP_QueuingAllowed_t"; "RANAP_RABDataVolumeReport_Value_t";
    "RANAP_RABDataVolumeReport_t"; "RANAP_RABParametersList_Value_t"; "RANAP_RABParametersList_t";
    "RANAP_RAB_AssignmentRequest_t"; "RANAP_RAB_AssignmentResponse_t"; "RANAP_RAB_AsymmetryIndicator_t";
    "RANAP_RAB_ContextItem_RANAP_RelocInf_t"; "RANAP_RAB_ContextItem_t"; "RANAP_RAB_ContextList_RANAP_RelocInf_t";
    "RANAP_RAB_ContextList_t"; "RANAP_RAB_DataForwardingItem_SRNS_CtxReq_t"; "RANAP_RAB_DataForwardingItem_t";
    "RANAP_RAB_DataForwardingList_SRNS_CtxReq_t"; "RANAP_RAB_DataForwardingList_t";
    "RANAP_RAB_DataVolumeReportItem_t"; "RANAP_RAB_DataVolumeReportList_t";
    "RANAP_RAB_DataVolumeReportRequestItem_t"; "RANAP_RAB_DataVolumeReportRequestList_t";
    "RANAP_RAB_FailedItem_EnhRelocInfoRes_t"; "RANAP_RAB_FailedItem_t"; "RANAP_RAB_FailedList_EnhRelocInfoRes_t";
    "RANAP_RAB_FailedList_t"; "RANAP_RAB_ID_t"; "RANAP_RAB_IE_ContainerList_t";
    "RANAP_RAB_IE_ContainerPairList_t"; "RANAP_RAB_ModifyItem_t"; "RANAP_RAB_ModifyList_t";
    "RANAP_RAB_ModifyRequest_t"; "RANAP_RAB_Parameter_ExtendedGuaranteedBitrateList_t";
    "RANAP_RAB_Parameter_ExtendedMaxBitrateList_t"; "RANAP_RAB_Parameter_GuaranteedBitrateList_t";
    "RANAP_RAB_Parameter_MaxBitrateList_t"; "RANAP_RAB_Parameters_t"; "RANAP_RAB_QueuedItem_t";
    "RANAP_RAB_QueuedList_t"; "RANAP_RAB_ReleaseFailedList_t"; "RANAP_RAB_ReleaseItem_t";
    "RANAP_RAB_ReleaseList_t"; "RANAP_RAB_ReleaseRequest_t"; "RANAP_RAB_ReleasedItem_IuRelComp_t";
    "RANAP_RAB_ReleasedItem_t"; "RANAP_RAB_ReleasedList_IuRelComp_t"; "RANAP_RAB_ReleasedList_t";
    "RANAP_RAB_RelocationReleaseItem_t"; "RANAP_RAB_RelocationReleaseList_t";
    "RANAP_RAB_SetupItem_EnhRelocInfoReq_t"; "RANAP_RAB_SetupItem_EnhRelocInfoRes_t";
    "RANAP_RAB_SetupItem_EnhancedRelocCompleteReq_t"; "RANAP_RAB_SetupItem_EnhancedRelocCompleteRes_t";
    "RANAP_RAB_SetupItem_RelocReqAck_t"; "RANAP_RAB_SetupItem_RelocReq_t";
    "RANAP_RAB_SetupList_EnhRelocInfoReq_t"; "RANAP_RAB_SetupList_EnhRelocInfoRes_t";
    "RANAP_RAB_SetupList_EnhancedRelocCompleteReq_t"; "RANAP_RAB_SetupList_EnhancedRelocCompleteRes_t";
    "RANAP_RAB_SetupList_RelocReqAck_t"; "RANAP_RAB_SetupList_RelocReq_t"; "RANAP_RAB_SetupOrModifiedItem_t";
    "RANAP_RAB_SetupOrModifiedList_t"; "RANAP_RAB_SetupOrModifyItemFirst_t";
    "RANAP_RAB_SetupOrModifyItemSecond_t"; "RANAP_RAB_SetupOrModifyList_t";
    "RANAP_RAB_SubflowCombinationBitRate_t"; "RANAP_RAB_ToBeReleasedItem_EnhancedRelocCompleteRes_t";
    "RANAP_RAB_ToBeReleasedList_EnhancedRelocCompleteRes_t"; "RANAP_RAB_TrCH_MappingItem_t";
    "RANAP_RAB_TrCH_Mapping_t"; "RANAP_RABased_t"; "RANAP_RABs_ContextFailedtoTransferItem_t";
    "RANAP_RABs_ContextFailedtoTransferList_t"; "RANAP_RABs_failed_to_reportItem_t";
    "RANAP_RABs_failed_to_reportList_t"; "RANAP_RAC_t"; "RANAP_RAI_List_t"; "RANAP_RAI_t";
    "RANAP_RAListofIdleModeUEs_t"; "RANAP_RAListwithNoIdleModeUEsAnyMore_t";
    "RANAP_RANAP_EnhancedRelocationInformationRequest_t"; "RANAP_RANAP_EnhancedRelocationInformationResponse_t";
    "RANAP_RANAP_PDU_t"; "RANAP_RANAP_RelocationInformation_t"; "RANAP_RAT_Type_t"; "RANAP_RAofIdleModeUEs_t";
    "RANAP_RIMInformation_t"; "RANAP_RIMRoutingAddress_t"; "RANAP_RIM_Transfer_t"; "RANAP_RNCTraceInformation_t";
    "RANAP_RNC_ID_t"; "RANAP_RNSAPRelocationParameters_t"; "RANAP_RRC_Container_t"; "RANAP_RSRQ_Extension_t";
    "RANAP_RSRQ_Type_t"; "RANAP_RSRVCC_HO_Indication_t"; "RANAP_RSRVCC_Information_t";
    "RANAP_RSRVCC_Operation_Possible_t"; "RANAP_RTLoadValue_t"; "RANAP_RateControlAllowed_t";
    "RANAP_RedirectAttemptFlag_t"; "RANAP_RedirectionCompleted_t"; "RANAP_RedirectionIndication_t";
    "RANAP_RejectCauseValue_t"; "RANAP_RelocationCancelAcknowledge_t"; "RANAP_RelocationCancel_t";
    "RANAP_RelocationCommand_t"; "RANAP_RelocationComplete_t"; "RANAP_RelocationDetect_t";
    "RANAP_RelocationFailure_t"; "RANAP_RelocationPreparationFailure_t"; "RANAP_RelocationRequestAcknowledge_t";
    "RANAP_RelocationRequest_t"; "RANAP_RelocationRequired_t"; "RANAP_RelocationRequirement_t";
    "RANAP_RelocationType_t"; "RANAP_RepetitionNumber0_t"; "RANAP_RepetitionNumber1_t"; "RANAP_ReportAmount_t";
    "RANAP_ReportArea_t"; "RANAP_ReportChangeOfSAI_t"; "RANAP_ReportInterval_t"; "RANAP_RequestType_t";
    "RANAP_RequestedGANSSAssistanceData_t"; "RANAP_RequestedGPSAssistanceData_t";
    "RANAP_RequestedLocationRelatedDataType_t"; "RANAP_RequestedMBMSIPMulticastAddressandAPNRequest_t";
    "RANAP_RequestedMulticastServiceList_t"; "RANAP_Requested_RAB_Parameter_ExtendedGuaranteedBitrateList_t";
    "RANAP_Requested_RAB_Parameter_ExtendedMaxBitrateList_t";
    "RANAP_Requested_RAB_Parameter_GuaranteedBitrateList_t"; "RANAP_Requested_RAB_Parameter_MaxBitrateList_t";
    "RANAP_Requested_RAB_Parameter_Values_t"; "RANAP_ResetAcknowledge_t"; "RANAP_ResetResourceAckItem_t";
    "RANAP_ResetResourceAckList_t"; "RANAP_ResetResourceAcknowledge_t"; "RANAP_ResetResourceItem_t";
    "RANAP_ResetResourceList_t"; "RANAP_ResetResource_t"; "RANAP_Reset_t"; "RANAP_ResidualBitErrorRatio_t";
    "RANAP_ResponseTime_t"; "RANAP_SAC_t"; "RANAP_SAI_t"; "RANAP_SAPI_t"; "RANAP_SDU_ErrorRatio_t";
    "RANAP_SDU_FormatInformationParameterItem_t"; "RANAP_SDU_FormatInformationParameters_t";
    "RANAP_SDU_ParameterItem_t"; "RANAP_SDU_Parameters_t"; "RANAP_SNAC_t"; "RANAP_SNA_Access_Information_t";
    "RANAP_SRB_ID_t"; "RANAP_SRB_TrCH_MappingItem_t"; "RANAP_SRB_TrCH_Mapping_t"; "RANAP_SRNS_ContextRequest_t";
    "RANAP_SRNS_ContextResponse_t"; "RANAP_SRNS_DataForwardCommand_t"; "RANAP_SRVCC_CSKeysRequest_t";
    "RANAP_SRVCC_CSKeysResponse_t"; "RANAP_SRVCC_HO_Indication_t"; "RANAP_SRVCC_Information_t";
    "RANAP_SRVCC_Operation_Possible_t"; "RANAP_SecurityModeCommand_t"; "RANAP_SecurityModeComplete_t";
    "RANAP_SecurityModeReject_t"; "RANAP_Service_Handover_t"; "RANAP_SessionUpdateID_t";
    "RANAP_Session_Re_establishment_Indicator_t"; "RANAP_Shared_Network_Information_t";
    "RANAP_SignallingIndication_t"; "RANAP_SourceBSS_ToTargetBSS_TransparentContainer_t"; "RANAP_SourceCellID_t";
    "RANAP_SourceID_t"; "RANAP_SourceRNC_ID_t"; "RANAP_SourceRNC_ToTargetRNC_TransparentContainer_t";
    "RANAP_SourceStatisticsDescriptor_t"; "RANAP_SourceUTRANCellID_t";
    "RANAP_Source_ToTarget_TransparentContainer_t"; "RANAP_SourceeNodeB_ToTargeteNodeB_TransparentContainer_t";
    "RANAP_SubflowSDU_Size_t"; "RANAP_SubscriberProfileIDforRFP_t"; "RANAP_SuccessfulOutcome_t";
    "RANAP_SupportedBitrate_t"; "RANAP_SupportedRAB_ParameterBitrateList_t"; "RANAP_TAC_t"; "RANAP_TAI_t";
    "RANAP_TBCD_STRING_t"; "RANAP_TMGI_t"; "RANAP_TMSI_t"; "RANAP_TNLInformationEnhRelInfoReq_t";
    "RANAP_TNLInformationEnhRelInfoRes_t"; "RANAP_TargetBSS_ToSourceBSS_TransparentContainer_t";
    "RANAP_TargetCellId_t"; "RANAP_TargetENB_ID_t"; "RANAP_TargetID_t"; "RANAP_TargetRNC_ID_t";
    "RANAP_TargetRNC_ToSourceRNC_TransparentContainer_t"; "RANAP_Target_ToSource_TransparentContainer_t";
    "RANAP_TargeteNodeB_ToSourceeNodeB_TransparentContainer_t"; "RANAP_TemporaryUE_ID_t";
    "RANAP_TimeToMBMSDataTransfer_t"; "RANAP_Time_UE_StayedInCell_EnhancedGranularity_t";
    "RANAP_Time_UE_StayedInCell_t"; "RANAP_TimingDifferenceULDL_t"; "RANAP_TrCH_ID_List_t"; "RANAP_TrCH_ID_t";
    "RANAP_TraceDepth_t"; "RANAP_TraceInformation_t"; "RANAP_TracePropagationParameters_t";
    "RANAP_TraceRecordingSessionInformation_t"; "RANAP_TraceRecordingSessionReference_t";
    "RANAP_TraceReference_t"; "RANAP_TraceType_t"; "RANAP_TrafficClass_t"; "RANAP_TrafficHandlingPriority_t";
    "RANAP_TransferDelay_t"; "RANAP_TransportLayerAddress_t"; "RANAP_TransportLayerInformation_t";
    "RANAP_TriggerID_t"; "RANAP_TriggeringMessage_t"; "RANAP_TunnelInformation_t"; "RANAP_TypeOfError_t";
    "RANAP_UESBI_IuA_t"; "RANAP_UESBI_IuB_t"; "RANAP_UESBI_Iu_t"; "RANAP_UESpecificInformationIndication_t";
    "RANAP_UE_AggregateMaximumBitRateDownlink_t"; "RANAP_UE_AggregateMaximumBitRateUplink_t";
    "RANAP_UE_AggregateMaximumBitRate_t"; "RANAP_UE_History_Information_t"; "RANAP_UE_ID_t";
    "RANAP_UL_GTP_PDU_SequenceNumber_t"; "RANAP_UL_N_PDU_SequenceNumber_t"; "RANAP_UPInformation_t";
    "RANAP_UPInitialisationFrame_t"; "RANAP_UP_ModeVersions_t"; "RANAP_USCH_ID_t"; "RANAP_UTRAN_CellID_t";
    "RANAP_UeRadioCapabilityMatchRequest_t"; "RANAP_UeRadioCapabilityMatchResponse_t";
    "RANAP_UnsuccessfulLinking_IEs_Value_t"; "RANAP_UnsuccessfulLinking_IEs_t"; "RANAP_UnsuccessfulOutcome_t";
    "RANAP_UnsuccessfullyTransmittedDataVolume_t"; "RANAP_UplinkInformationExchangeFailure_t";
    "RANAP_UplinkInformationExchangeRequest_t"; "RANAP_UplinkInformationExchangeResponse_t";
    "RANAP_UserPlaneInformation_t"; "RANAP_UserPlaneMode_t"; "RANAP_VelocityEstimate_t";
    "RANAP_VerticalAccuracyCode_t"; "RANAP_VerticalSpeedDirection_t"; "RANAP_VerticalVelocity_t";
    "RANAP_VoiceSupportMatchIndicator_t" ].
(* include/osmocom/ranap/RANAP_*.h: structures that contain a list: type, member, type of the elements *)
Definition ranap_lists : list (string * string * string) :=
  [ ("RANAP_CN_DeactivateTrace_t", "cN_DeactivateTrace_ies", "RANAP_IE_t");
    ("RANAP_CN_InvokeTrace_t", "cN_InvokeTrace_ies", "RANAP_IE_t");
    ("RANAP_CommonID_t", "commonID_ies", "RANAP_IE_t");
    ("RANAP_DataVolumeReportList_t", "dataVolumeReportListe_ies", "RANAP_IE_t");
    ("RANAP_DataVolumeReportRequest_t", "dataVolumeReportRequest_ies", "RANAP_IE_t");
    ("RANAP_DataVolumeReport_t", "dataVolumeReport_ies", "RANAP_IE_t");
    ("RANAP_DirectInformationTransfer_t", "directInformationTransfer_ies", "RANAP_IE_t");
    ("RANAP_DirectTransfer_t", "directTransfer_ies", "RANAP_IE_t");
    ("RANAP_EnhancedRelocationCompleteConfirm_t", "enhancedRelocationCompleteConfirm_ies", "RANAP_IE_t");
    ("RANAP_EnhancedRelocationCompleteFailure_t", "enhancedRelocationCompleteFailure_ies", "RANAP_IE_t");
    ("RANAP_EnhancedRelocationCompleteRequest_t", "enhancedRelocationCompleteRequest_ies", "RANAP_IE_t");
    ("RANAP_EnhancedRelocationCompleteResponse_t", "enhancedRelocationCompleteResponse_ies", "RANAP_IE_t");
    ("RANAP_ErrorIndication_t", "errorIndication_ies", "RANAP_IE_t");
    ("RANAP_ForwardSRNS_Context_t", "forwardSRNS_Context_ies", "RANAP_IE_t");
    ("RANAP_GERAN_Iumode_RAB_Failed_RABAssgntResponse_List_t", "geraN_Iumode_RAB_Failed_RABAssgntResponse_List_ies", "RANAP_IE_t");
    ("RANAP_InformationTransferConfirmation_t", "informationTransferConfirmation_ies", "RANAP_IE_t");
    ("RANAP_InformationTransferFailure_t", "informationTransferFailure_ies", "RANAP_IE_t");
    ("RANAP_InformationTransferIndication_t", "informationTransferIndication_ies", "RANAP_IE_t");
    ("RANAP_InitialUE_Message_t", "initialUE_Message_ies", "RANAP_IE_t");
    ("RANAP_Iu_ReleaseCommand_t", "iu_ReleaseCommand_ies", "RANAP_IE_t");
    ("RANAP_Iu_ReleaseComplete_t", "iu_ReleaseComplete_ies", "RANAP_IE_t");
    ("RANAP_Iu_ReleaseRequest_t", "iu_ReleaseRequest_ies", "RANAP_IE_t");
    ("RANAP_LocationRelatedDataFailure_t", "locationRelatedDataFailure_ies", "RANAP_IE_t");
    ("RANAP_LocationRelatedDataRequest_t", "locationRelatedDataRequest_ies", "RANAP_IE_t");
    ("RANAP_LocationRelatedDataResponse_t", "locationRelatedDataResponse_ies", "RANAP_IE_t");
    ("RANAP_LocationReport_t", "locationReport_ies", "RANAP_IE_t");
    ("RANAP_LocationReportingControl_t", "locationReportingControl_ies", "RANAP_IE_t");
    ("RANAP_MBMSCNDe_RegistrationRequest_t", "mbmscnDe_RegistrationRequest_ies", "RANAP_IE_t");
    ("RANAP_MBMSCNDe_RegistrationResponse_t", "mbmscnDe_RegistrationResponse_ies", "RANAP_IE_t");
    ("RANAP_MBMSRABEstablishmentIndication_t", "mbmsrabEstablishmentIndication_ies", "RANAP_IE_t");
    ("RANAP_MBMSRABReleaseFailure_t", "mbmsrabReleaseFailure_ies", "RANAP_IE_t");
    ("RANAP_MBMSRABReleaseRequest_t", "mbmsrabReleaseRequest_ies", "RANAP_IE_t");
    ("RANAP_MBMSRABRelease_t", "mbmsrabRelease_ies", "RANAP_IE_t");
    ("RANAP_MBMSRegistrationFailure_t", "mbmsRegistrationFailure_ies", "RANAP_IE_t");
    ("RANAP_MBMSRegistrationRequest_t", "mbmsRegistrationRequest_ies", "RANAP_IE_t");
    ("RANAP_MBMSRegistrationResponse_t", "mbmsRegistrationResponse_ies", "RANAP_IE_t");
    ("RANAP_MBMSSessionStartFailure_t", "mbmsSessionStartFailure_ies", "RANAP_IE_t");
    ("RANAP_MBMSSessionStartResponse_t", "mbmsSessionStartResponse_ies", "RANAP_IE_t");
    ("RANAP_MBMSSessionStart_t", "mbmsSessionStart_ies", "RANAP_IE_t");
    ("RANAP_MBMSSessionStopResponse_t", "mbmsSessionStopResponse_ies", "RANAP_IE_t");
    ("RANAP_MBMSSessionStop_t", "mbmsSessionStop_ies", "RANAP_IE_t");
    ("RANAP_MBMSSessionUpdateFailure_t", "mbmsSessionUpdateFailure_ies", "RANAP_IE_t");
    ("RANAP_MBMSSessionUpdateResponse_t", "mbmsSessionUpdateResponse_ies", "RANAP_IE_t");
    ("RANAP_MBMSSessionUpdate_t", "mbmsSessionUpdate_ies", "RANAP_IE_t");
    ("RANAP_MBMSUELinkingRequest_t", "mbmsueLinkingRequest_ies", "RANAP_IE_t");
    ("RANAP_MBMSUELinkingResponse_t", "mbmsueLinkingResponse_ies", "RANAP_IE_t");
    ("RANAP_Overload_t", "overload_ies", "RANAP_IE_t"); ("RANAP_Paging_t", "paging_ies", "RANAP_IE_t");
    ("RANAP_PrivateMessage_t", "privateMessage_ies", "RANAP_IE_t");
    ("RANAP_RAB_AssignmentRequest_t", "raB_AssignmentRequest_ies", "RANAP_IE_t");
    ("RANAP_RAB_AssignmentResponse_t", "raB_AssignmentResponse_ies", "RANAP_IE_t");
    ("RANAP_RAB_ContextList_RANAP_RelocInf_t", "raB_ContextList_RANAP_RelocInf_ies", "RANAP_IE_t");
    ("RANAP_RAB_ContextList_t", "raB_ContextList_ies", "RANAP_IE_t");
    ("RANAP_RAB_DataForwardingList_SRNS_CtxReq_t", "raB_DataForwardingList_SRNS_CtxReq_ies", "RANAP_IE_t");
    ("RANAP_RAB_DataForwardingList_t", "raB_DataForwardingList_ies", "RANAP_IE_t");
    ("RANAP_RAB_DataVolumeReportList_t", "raB_DataVolumeReportList_ies", "RANAP_IE_t");
    ("RANAP_RAB_DataVolumeReportRequestList_t", "raB_DataVolumeReportRequestList_ies", "RANAP_IE_t");
    ("RANAP_RAB_FailedList_EnhRelocInfoRes_t", "raB_FailedList_EnhRelocInfoRes_ies", "RANAP_IE_t");
    ("RANAP_RAB_FailedList_t", "raB_FailedList_ies", "RANAP_IE_t");
    ("RANAP_RAB_ModifyList_t", "raB_ModifyList_ies", "RANAP_IE_t");
    ("RANAP_RAB_ModifyRequest_t", "raB_ModifyRequest_ies", "RANAP_IE_t");
    ("RANAP_RAB_QueuedList_t", "raB_QueuedList_ies", "RANAP_IE_t");
    ("RANAP_RAB_ReleaseList_t", "raB_ReleaseList_ies", "RANAP_IE_t");
    ("RANAP_RAB_ReleaseRequest_t", "raB_ReleaseRequest_ies", "RANAP_IE_t");
    ("RANAP_RAB_ReleasedList_IuRelComp_t", "raB_ReleasedList_IuRelComp_ies", "RANAP_IE_t");
    ("RANAP_RAB_ReleasedList_t", "raB_ReleasedList_ies", "RANAP_IE_t");
    ("RANAP_RAB_RelocationReleaseList_t", "raB_RelocationReleaseList_ies", "RANAP_IE_t");
    ("RANAP_RAB_SetupList_EnhRelocInfoReq_t", "raB_SetupList_EnhRelocInfoReq_ies", "RANAP_IE_t");
    ("RANAP_RAB_SetupList_EnhRelocInfoRes_t", "raB_SetupList_EnhRelocInfoRes_ies", "RANAP_IE_t");
    ("RANAP_RAB_SetupList_EnhancedRelocCompleteReq_t", "raB_SetupList_EnhancedRelocCompleteReq_ies", "RANAP_IE_t");
    ("RANAP_RAB_SetupList_EnhancedRelocCompleteRes_t", "raB_SetupList_EnhancedRelocCompleteRes_ies", "RANAP_IE_t");
    ("RANAP_RAB_SetupList_RelocReqAck_t", "raB_SetupList_RelocReqAck_ies", "RANAP_IE_t");
    ("RANAP_RAB_SetupList_RelocReq_t", "raB_SetupList_RelocReq_ies", "RANAP_IE_t");
    ("RANAP_RAB_SetupOrModifiedList_t", "raB_SetupOrModifiedList_ies", "RANAP_IE_t");
    ("RANAP_RAB_ToBeReleasedList_EnhancedRelocCompleteRes_t", "raB_ToBeReleasedList_EnhancedRelocCompleteRes_ies", "RANAP_IE_t");
    ("RANAP_RABs_ContextFailedtoTransferList_t", "raBs_ContextFailedtoTransferList_ies", "RANAP_IE_t");
    ("RANAP_RABs_failed_to_reportList_t", "raBs_failed_to_reportList_ies", "RANAP_IE_t");
    ("RANAP_RANAP_EnhancedRelocationInformationRequest_t", "ranaP_EnhancedRelocationInformationRequest_ies", "RANAP_IE_t");
    ("RANAP_RANAP_EnhancedRelocationInformationResponse_t", "ranaP_EnhancedRelocationInformationResponse_ies", "RANAP_IE_t");
    ("RANAP_RANAP_RelocationInformation_t", "ranaP_RelocationInformation_ies", "RANAP_IE_t");
    ("RANAP_RedirectionIndication_t", "redirectionIndication_ies", "RANAP_IE_t");
    ("RANAP_RelocationCancelAcknowledge_t", "relocationCancelAcknowledge_ies", "RANAP_IE_t");
    ("RANAP_RelocationCancel_t", "relocationCancel_ies", "RANAP_IE_t");
    ("RANAP_RelocationCommand_t", "relocationCommand_ies", "RANAP_IE_t");
    ("RANAP_RelocationComplete_t", "relocationComplete_ies", "RANAP_IE_t");
    ("RANAP_RelocationDetect_t", "relocationDetect_ies", "RANAP_IE_t");
    ("RANAP_RelocationFailure_t", "relocationFailure_ies", "RANAP_IE_t");
    ("RANAP_RelocationPreparationFailure_t", "relocationPreparationFailure_ies", "RANAP_IE_t");
    ("RANAP_RelocationRequestAcknowledge_t", "relocationRequestAcknowledge_ies", "RANAP_IE_t");
    ("RANAP_RelocationRequest_t", "relocationRequest_ies", "RANAP_IE_t");
    ("RANAP_RelocationRequired_t", "relocationRequired_ies", "RANAP_IE_t");
    ("RANAP_ResetAcknowledge_t", "resetAcknowledge_ies", "RANAP_IE_t");
    ("RANAP_ResetResourceAckList_t", "resetResourceAckList_ies", "RANAP_IE_t");
    ("RANAP_ResetResourceAcknowledge_t", "resetResourceAcknowledge_ies", "RANAP_IE_t");
    ("RANAP_ResetResourceList_t", "resetResourceList_ies", "RANAP_IE_t");
    ("RANAP_ResetResource_t", "resetResource_ies", "RANAP_IE_t"); ("RANAP_Reset_t", "reset_ies", "RANAP_IE_t");
    ("RANAP_SRNS_ContextRequest_t", "srnS_ContextRequest_ies", "RANAP_IE_t");
    ("RANAP_SRNS_ContextResponse_t", "srnS_ContextResponse_ies", "RANAP_IE_t");
    ("RANAP_SRNS_DataForwardCommand_t", "srnS_DataForwardCommand_ies", "RANAP_IE_t");
    ("RANAP_SRVCC_CSKeysRequest_t", "srvcC_CSKeysRequest_ies", "RANAP_IE_t");
    ("RANAP_SRVCC_CSKeysResponse_t", "srvcC_CSKeysResponse_ies", "RANAP_IE_t");
    ("RANAP_SecurityModeCommand_t", "securityModeCommand_ies", "RANAP_IE_t");
    ("RANAP_SecurityModeComplete_t", "securityModeComplete_ies", "RANAP_IE_t");
    ("RANAP_SecurityModeReject_t", "securityModeReject_ies", "RANAP_IE_t");
    ("RANAP_UESpecificInformationIndication_t", "ueSpecificInformationIndication_ies", "RANAP_IE_t");
    ("RANAP_UeRadioCapabilityMatchRequest_t", "ueRadioCapabilityMatchRequest_ies", "RANAP_IE_t");
    ("RANAP_UeRadioCapabilityMatchResponse_t", "ueRadioCapabilityMatchResponse_ies", "RANAP_IE_t");
    ("RANAP_UplinkInformationExchangeFailure_t", "uplinkInformationExchangeFailure_ies", "RANAP_IE_t");
    ("RANAP_UplinkInformationExchangeRequest_t", "uplinkInformationExchangeRequest_ies", "RANAP_IE_t");
    ("RANAP_UplinkInformationExchangeResponse_t", "uplinkInformationExchangeResponse_ies", "RANAP_IE_t") ].
(* include/osmocom/ranap/RANAP_ProtocolIE-ID.h *)
Definition ranap_ids : list (string * N) :=
  [ ("RANAP_ProtocolIE_ID_id_AreaIdentity", 0%N); ("RANAP_ProtocolIE_ID_id_CN_DomainIndicator", 3%N);
    ("RANAP_ProtocolIE_ID_id_Cause", 4%N); ("RANAP_ProtocolIE_ID_id_ChosenEncryptionAlgorithm", 5%N);
    ("RANAP_ProtocolIE_ID_id_ChosenIntegrityProtectionAlgorithm", 6%N);
    ("RANAP_ProtocolIE_ID_id_ClassmarkInformation2", 7%N); ("RANAP_ProtocolIE_ID_id_ClassmarkInformation3", 8%N);
    ("RANAP_ProtocolIE_ID_id_CriticalityDiagnostics", 9%N);
    ("RANAP_ProtocolIE_ID_id_DL_GTP_PDU_SequenceNumber", 10%N);
    ("RANAP_ProtocolIE_ID_id_EncryptionInformation", 11%N);
    ("RANAP_ProtocolIE_ID_id_IntegrityProtectionInformation", 12%N);
    ("RANAP_ProtocolIE_ID_id_IuTransportAssociation", 13%N); ("RANAP_ProtocolIE_ID_id_L3_Information", 14%N);
    ("RANAP_ProtocolIE_ID_id_LAI", 15%N); ("RANAP_ProtocolIE_ID_id_NAS_PDU", 16%N);
    ("RANAP_ProtocolIE_ID_id_NonSearchingIndication", 17%N); ("RANAP_ProtocolIE_ID_id_NumberOfSteps", 18%N);
    ("RANAP_ProtocolIE_ID_id_OMC_ID", 19%N); ("RANAP_ProtocolIE_ID_id_OldBSS_ToNewBSS_Information", 20%N);
    ("RANAP_ProtocolIE_ID_id_PagingAreaID", 21%N); ("RANAP_ProtocolIE_ID_id_PagingCause", 22%N);
    ("RANAP_ProtocolIE_ID_id_PermanentNAS_UE_ID", 23%N); ("RANAP_ProtocolIE_ID_id_RAB_ContextItem", 24%N);
    ("RANAP_ProtocolIE_ID_id_RAB_ContextList", 25%N); ("RANAP_ProtocolIE_ID_id_RAB_DataForwardingItem", 26%N);
    ("RANAP_ProtocolIE_ID_id_RAB_DataForwardingItem_SRNS_CtxReq", 27%N);
    ("RANAP_ProtocolIE_ID_id_RAB_DataForwardingList", 28%N);
    ("RANAP_ProtocolIE_ID_id_RAB_DataForwardingList_SRNS_CtxReq", 29%N);
    ("RANAP_ProtocolIE_ID_id_RAB_DataVolumeReportItem", 30%N);
    ("RANAP_ProtocolIE_ID_id_RAB_DataVolumeReportList", 31%N);
    ("RANAP_ProtocolIE_ID_id_RAB_DataVolumeReportRequestItem", 32%N);
    ("RANAP_ProtocolIE_ID_id_RAB_DataVolumeReportRequestList", 33%N);
    ("RANAP_ProtocolIE_ID_id_RAB_FailedItem", 34%N); ("RANAP_ProtocolIE_ID_id_RAB_FailedList", 35%N);
    ("RANAP_ProtocolIE_ID_id_RAB_ID", 36%N); ("RANAP_ProtocolIE_ID_id_RAB_QueuedItem", 37%N);
    ("RANAP_ProtocolIE_ID_id_RAB_QueuedList", 38%N); ("RANAP_ProtocolIE_ID_id_RAB_ReleaseFailedList", 39%N);
    ("RANAP_ProtocolIE_ID_id_RAB_ReleaseItem", 40%N); ("RANAP_ProtocolIE_ID_id_RAB_ReleaseList", 41%N);
    ("RANAP_ProtocolIE_ID_id_RAB_ReleasedItem", 42%N); ("RANAP_ProtocolIE_ID_id_RAB_ReleasedList", 43%N);
    ("RANAP_ProtocolIE_ID_id_RAB_ReleasedList_IuRelComp", 44%N);
    ("RANAP_ProtocolIE_ID_id_RAB_RelocationReleaseItem", 45%N);
    ("RANAP_ProtocolIE_ID_id_RAB_RelocationReleaseList", 46%N);
    ("RANAP_ProtocolIE_ID_id_RAB_SetupItem_RelocReq", 47%N);
    ("RANAP_ProtocolIE_ID_id_RAB_SetupItem_RelocReqAck", 48%N);
    ("RANAP_ProtocolIE_ID_id_RAB_SetupList_RelocReq", 49%N);
    ("RANAP_ProtocolIE_ID_id_RAB_SetupList_RelocReqAck", 50%N);
    ("RANAP_ProtocolIE_ID_id_RAB_SetupOrModifiedItem", 51%N);
    ("RANAP_ProtocolIE_ID_id_RAB_SetupOrModifiedList", 52%N);
    ("RANAP_ProtocolIE_ID_id_RAB_SetupOrModifyItem", 53%N);
    ("RANAP_ProtocolIE_ID_id_RAB_SetupOrModifyList", 54%N); ("RANAP_ProtocolIE_ID_id_RAC", 55%N);
    ("RANAP_ProtocolIE_ID_id_RelocationType", 56%N); ("RANAP_ProtocolIE_ID_id_RequestType", 57%N);
    ("RANAP_ProtocolIE_ID_id_SAI", 58%N); ("RANAP_ProtocolIE_ID_id_SAPI", 59%N);
    ("RANAP_ProtocolIE_ID_id_SourceID", 60%N);
    ("RANAP_ProtocolIE_ID_id_Source_ToTarget_TransparentContainer", 61%N);
    ("RANAP_ProtocolIE_ID_id_TargetID", 62%N);
    ("RANAP_ProtocolIE_ID_id_Target_ToSource_TransparentContainer", 63%N);
    ("RANAP_ProtocolIE_ID_id_TemporaryUE_ID", 64%N); ("RANAP_ProtocolIE_ID_id_TraceReference", 65%N);
    ("RANAP_ProtocolIE_ID_id_TraceType", 66%N); ("RANAP_ProtocolIE_ID_id_TransportLayerAddress", 67%N);
    ("RANAP_ProtocolIE_ID_id_TriggerID", 68%N); ("RANAP_ProtocolIE_ID_id_UE_ID", 69%N);
    ("RANAP_ProtocolIE_ID_id_UL_GTP_PDU_SequenceNumber", 70%N);
    ("RANAP_ProtocolIE_ID_id_RAB_FailedtoReportItem", 71%N);
    ("RANAP_ProtocolIE_ID_id_RAB_FailedtoReportList", 72%N); ("RANAP_ProtocolIE_ID_id_KeyStatus", 75%N);
    ("RANAP_ProtocolIE_ID_id_DRX_CycleLengthCoefficient", 76%N); ("RANAP_ProtocolIE_ID_id_IuSigConIdList", 77%N);
    ("RANAP_ProtocolIE_ID_id_IuSigConIdItem", 78%N); ("RANAP_ProtocolIE_ID_id_IuSigConId", 79%N);
    ("RANAP_ProtocolIE_ID_id_DirectTransferInformationItem_RANAP_RelocInf", 80%N);
    ("RANAP_ProtocolIE_ID_id_DirectTransferInformationList_RANAP_RelocInf", 81%N);
    ("RANAP_ProtocolIE_ID_id_RAB_ContextItem_RANAP_RelocInf", 82%N);
    ("RANAP_ProtocolIE_ID_id_RAB_ContextList_RANAP_RelocInf", 83%N);
    ("RANAP_ProtocolIE_ID_id_RAB_ContextFailedtoTransferItem", 84%N);
    ("RANAP_ProtocolIE_ID_id_RAB_ContextFailedtoTransferList", 85%N);
    ("RANAP_ProtocolIE_ID_id_GlobalRNC_ID", 86%N); ("RANAP_ProtocolIE_ID_id_RAB_ReleasedItem_IuRelComp", 87%N);
    ("RANAP_ProtocolIE_ID_id_MessageStructure", 88%N); ("RANAP_ProtocolIE_ID_id_Alt_RAB_Parameters", 89%N);
    ("RANAP_ProtocolIE_ID_id_Ass_RAB_Parameters", 90%N); ("RANAP_ProtocolIE_ID_id_RAB_ModifyList", 91%N);
    ("RANAP_ProtocolIE_ID_id_RAB_ModifyItem", 92%N); ("RANAP_ProtocolIE_ID_id_TypeOfError", 93%N);
    ("RANAP_ProtocolIE_ID_id_BroadcastAssistanceDataDecipheringKeys", 94%N);
    ("RANAP_ProtocolIE_ID_id_LocationRelatedDataRequestType", 95%N); ("RANAP_ProtocolIE_ID_id_GlobalCN_ID", 96%N);
    ("RANAP_ProtocolIE_ID_id_LastKnownServiceArea", 97%N); ("RANAP_ProtocolIE_ID_id_SRB_TrCH_Mapping", 98%N);
    ("RANAP_ProtocolIE_ID_id_InterSystemInformation_TransparentContainer", 99%N);
    ("RANAP_ProtocolIE_ID_id_NewBSS_To_OldBSS_Information", 100%N);
    ("RANAP_ProtocolIE_ID_id_SourceRNC_PDCP_context_info", 103%N);
    ("RANAP_ProtocolIE_ID_id_InformationTransferID", 104%N);
    ("RANAP_ProtocolIE_ID_id_SNA_Access_Information", 105%N); ("RANAP_ProtocolIE_ID_id_ProvidedData", 106%N);
    ("RANAP_ProtocolIE_ID_id_GERAN_BSC_Container", 107%N); ("RANAP_ProtocolIE_ID_id_GERAN_Classmark", 108%N);
    ("RANAP_ProtocolIE_ID_id_GERAN_Iumode_RAB_Failed_RABAssgntResponse_Item", 109%N);
    ("RANAP_ProtocolIE_ID_id_GERAN_Iumode_RAB_FailedList_RABAssgntResponse", 110%N);
    ("RANAP_ProtocolIE_ID_id_VerticalAccuracyCode", 111%N); ("RANAP_ProtocolIE_ID_id_ResponseTime", 112%N);
    ("RANAP_ProtocolIE_ID_id_PositioningPriority", 113%N); ("RANAP_ProtocolIE_ID_id_ClientType", 114%N);
    ("RANAP_ProtocolIE_ID_id_LocationRelatedDataRequestTypeSpecificToGERANIuMode", 115%N);
    ("RANAP_ProtocolIE_ID_id_SignallingIndication", 116%N);
    ("RANAP_ProtocolIE_ID_id_hS_DSCH_MAC_d_Flow_ID", 117%N); ("RANAP_ProtocolIE_ID_id_UESBI_Iu", 118%N);
    ("RANAP_ProtocolIE_ID_id_PositionData", 119%N);
    ("RANAP_ProtocolIE_ID_id_PositionDataSpecificToGERANIuMode", 120%N);
    ("RANAP_ProtocolIE_ID_id_CellLoadInformationGroup", 121%N);
    ("RANAP_ProtocolIE_ID_id_AccuracyFulfilmentIndicator", 122%N);
    ("RANAP_ProtocolIE_ID_id_InformationTransferType", 123%N);
    ("RANAP_ProtocolIE_ID_id_TraceRecordingSessionInformation", 124%N);
    ("RANAP_ProtocolIE_ID_id_TracePropagationParameters", 125%N);
    ("RANAP_ProtocolIE_ID_id_InterSystemInformationTransferType", 126%N);
    ("RANAP_ProtocolIE_ID_id_SelectedPLMN_ID", 127%N); ("RANAP_ProtocolIE_ID_id_RedirectionCompleted", 128%N);
    ("RANAP_ProtocolIE_ID_id_RedirectionIndication", 129%N); ("RANAP_ProtocolIE_ID_id_NAS_SequenceNumber", 130%N);
    ("RANAP_ProtocolIE_ID_id_RejectCauseValue", 131%N); ("RANAP_ProtocolIE_ID_id_APN", 132%N);
    ("RANAP_ProtocolIE_ID_id_CNMBMSLinkingInformation", 133%N);
    ("RANAP_ProtocolIE_ID_id_DeltaRAListofIdleModeUEs", 134%N);
    ("RANAP_ProtocolIE_ID_id_FrequenceLayerConvergenceFlag", 135%N);
    ("RANAP_ProtocolIE_ID_id_InformationExchangeID", 136%N);
    ("RANAP_ProtocolIE_ID_id_InformationExchangeType", 137%N);
    ("RANAP_ProtocolIE_ID_id_InformationRequested", 138%N);
    ("RANAP_ProtocolIE_ID_id_InformationRequestType", 139%N);
    ("RANAP_ProtocolIE_ID_id_IPMulticastAddress", 140%N);
    ("RANAP_ProtocolIE_ID_id_JoinedMBMSBearerServicesList", 141%N);
    ("RANAP_ProtocolIE_ID_id_LeftMBMSBearerServicesList", 142%N);
    ("RANAP_ProtocolIE_ID_id_MBMSBearerServiceType", 143%N);
    ("RANAP_ProtocolIE_ID_id_MBMSCNDe_Registration", 144%N); ("RANAP_ProtocolIE_ID_id_MBMSServiceArea", 145%N);
    ("RANAP_ProtocolIE_ID_id_MBMSSessionDuration", 146%N); ("RANAP_ProtocolIE_ID_id_MBMSSessionIdentity", 147%N);
    ("RANAP_ProtocolIE_ID_id_PDP_TypeInformation", 148%N); ("RANAP_ProtocolIE_ID_id_RAB_Parameters", 149%N);
    ("RANAP_ProtocolIE_ID_id_RAListofIdleModeUEs", 150%N);
    ("RANAP_ProtocolIE_ID_id_MBMSRegistrationRequestType", 151%N);
    ("RANAP_ProtocolIE_ID_id_SessionUpdateID", 152%N); ("RANAP_ProtocolIE_ID_id_TMGI", 153%N);
    ("RANAP_ProtocolIE_ID_id_TransportLayerInformation", 154%N);
    ("RANAP_ProtocolIE_ID_id_UnsuccessfulLinkingList", 155%N);
    ("RANAP_ProtocolIE_ID_id_MBMSLinkingInformation", 156%N);
    ("RANAP_ProtocolIE_ID_id_MBMSSessionRepetitionNumber", 157%N);
    ("RANAP_ProtocolIE_ID_id_AlternativeRABConfiguration", 158%N);
    ("RANAP_ProtocolIE_ID_id_AlternativeRABConfigurationRequest", 159%N);
    ("RANAP_ProtocolIE_ID_id_E_DCH_MAC_d_Flow_ID", 160%N);
    ("RANAP_ProtocolIE_ID_id_SourceBSS_ToTargetBSS_TransparentContainer", 161%N);
    ("RANAP_ProtocolIE_ID_id_TargetBSS_ToSourceBSS_TransparentContainer", 162%N);
    ("RANAP_ProtocolIE_ID_id_TimeToMBMSDataTransfer", 163%N); ("RANAP_ProtocolIE_ID_id_IncludeVelocity", 164%N);
    ("RANAP_ProtocolIE_ID_id_VelocityEstimate", 165%N); ("RANAP_ProtocolIE_ID_id_RedirectAttemptFlag", 166%N);
    ("RANAP_ProtocolIE_ID_id_RAT_Type", 167%N); ("RANAP_ProtocolIE_ID_id_PeriodicLocationInfo", 168%N);
    ("RANAP_ProtocolIE_ID_id_MBMSCountingInformation", 169%N);
    ("RANAP_ProtocolIE_ID_id_170_not_to_be_used_for_IE_ids", 170%N);
    ("RANAP_ProtocolIE_ID_id_ExtendedRNC_ID", 171%N);
    ("RANAP_ProtocolIE_ID_id_Alt_RAB_Parameter_ExtendedGuaranteedBitrateInf", 172%N);
    ("RANAP_ProtocolIE_ID_id_Alt_RAB_Parameter_ExtendedMaxBitrateInf", 173%N);
    ("RANAP_ProtocolIE_ID_id_Ass_RAB_Parameter_ExtendedGuaranteedBitrateList", 174%N);
    ("RANAP_ProtocolIE_ID_id_Ass_RAB_Parameter_ExtendedMaxBitrateList", 175%N);
    ("RANAP_ProtocolIE_ID_id_RAB_Parameter_ExtendedGuaranteedBitrateList", 176%N);
    ("RANAP_ProtocolIE_ID_id_RAB_Parameter_ExtendedMaxBitrateList", 177%N);
    ("RANAP_ProtocolIE_ID_id_Requested_RAB_Parameter_ExtendedMaxBitrateList", 178%N);
    ("RANAP_ProtocolIE_ID_id_Requested_RAB_Parameter_ExtendedGuaranteedBitrateList", 179%N);
    ("RANAP_ProtocolIE_ID_id_LAofIdleModeUEs", 180%N); ("RANAP_ProtocolIE_ID_id_newLAListofIdleModeUEs", 181%N);
    ("RANAP_ProtocolIE_ID_id_LAListwithNoIdleModeUEsAnyMore", 182%N);
    ("RANAP_ProtocolIE_ID_id_183_not_to_be_used_for_IE_ids", 183%N);
    ("RANAP_ProtocolIE_ID_id_GANSS_PositioningDataSet", 184%N);
    ("RANAP_ProtocolIE_ID_id_RequestedGANSSAssistanceData", 185%N);
    ("RANAP_ProtocolIE_ID_id_BroadcastGANSSAssistanceDataDecipheringKeys", 186%N);
    ("RANAP_ProtocolIE_ID_id_d_RNTI_for_NoIuCSUP", 187%N);
    ("RANAP_ProtocolIE_ID_id_RAB_SetupList_EnhancedRelocCompleteReq", 188%N);
    ("RANAP_ProtocolIE_ID_id_RAB_SetupItem_EnhancedRelocCompleteReq", 189%N);
    ("RANAP_ProtocolIE_ID_id_RAB_SetupList_EnhancedRelocCompleteRes", 190%N);
    ("RANAP_ProtocolIE_ID_id_RAB_SetupItem_EnhancedRelocCompleteRes", 191%N);
    ("RANAP_ProtocolIE_ID_id_RAB_SetupList_EnhRelocInfoReq", 192%N);
    ("RANAP_ProtocolIE_ID_id_RAB_SetupItem_EnhRelocInfoReq", 193%N);
    ("RANAP_ProtocolIE_ID_id_RAB_SetupList_EnhRelocInfoRes", 194%N);
    ("RANAP_ProtocolIE_ID_id_RAB_SetupItem_EnhRelocInfoRes", 195%N);
    ("RANAP_ProtocolIE_ID_id_OldIuSigConId", 196%N);
    ("RANAP_ProtocolIE_ID_id_RAB_FailedList_EnhRelocInfoRes", 197%N);
    ("RANAP_ProtocolIE_ID_id_RAB_FailedItem_EnhRelocInfoRes", 198%N);
    ("RANAP_ProtocolIE_ID_id_Global_ENB_ID", 199%N); ("RANAP_ProtocolIE_ID_id_UE_History_Information", 200%N);
    ("RANAP_ProtocolIE_ID_id_MBMSSynchronisationInformation", 201%N);
    ("RANAP_ProtocolIE_ID_id_SubscriberProfileIDforRFP", 202%N); ("RANAP_ProtocolIE_ID_id_CSG_Id", 203%N);
    ("RANAP_ProtocolIE_ID_id_OldIuSigConIdCS", 204%N); ("RANAP_ProtocolIE_ID_id_OldIuSigConIdPS", 205%N);
    ("RANAP_ProtocolIE_ID_id_GlobalCN_IDCS", 206%N); ("RANAP_ProtocolIE_ID_id_GlobalCN_IDPS", 207%N);
    ("RANAP_ProtocolIE_ID_id_SourceExtendedRNC_ID", 208%N);
    ("RANAP_ProtocolIE_ID_id_RAB_ToBeReleasedItem_EnhancedRelocCompleteRes", 209%N);
    ("RANAP_ProtocolIE_ID_id_RAB_ToBeReleasedList_EnhancedRelocCompleteRes", 210%N);
    ("RANAP_ProtocolIE_ID_id_SourceRNC_ID", 211%N); ("RANAP_ProtocolIE_ID_id_Relocation_TargetRNC_ID", 212%N);
    ("RANAP_ProtocolIE_ID_id_Relocation_TargetExtendedRNC_ID", 213%N);
    ("RANAP_ProtocolIE_ID_id_Alt_RAB_Parameter_SupportedGuaranteedBitrateInf", 214%N);
    ("RANAP_ProtocolIE_ID_id_Alt_RAB_Parameter_SupportedMaxBitrateInf", 215%N);
    ("RANAP_ProtocolIE_ID_id_Ass_RAB_Parameter_SupportedGuaranteedBitrateList", 216%N);
    ("RANAP_ProtocolIE_ID_id_Ass_RAB_Parameter_SupportedMaxBitrateList", 217%N);
    ("RANAP_ProtocolIE_ID_id_RAB_Parameter_SupportedGuaranteedBitrateList", 218%N);
    ("RANAP_ProtocolIE_ID_id_RAB_Parameter_SupportedMaxBitrateList", 219%N);
    ("RANAP_ProtocolIE_ID_id_Requested_RAB_Parameter_SupportedMaxBitrateList", 220%N);
    ("RANAP_ProtocolIE_ID_id_Requested_RAB_Parameter_SupportedGuaranteedBitrateList", 221%N);
    ("RANAP_ProtocolIE_ID_id_Relocation_SourceRNC_ID", 222%N);
    ("RANAP_ProtocolIE_ID_id_Relocation_SourceExtendedRNC_ID", 223%N);
    ("RANAP_ProtocolIE_ID_id_EncryptionKey", 224%N); ("RANAP_ProtocolIE_ID_id_IntegrityProtectionKey", 225%N);
    ("RANAP_ProtocolIE_ID_id_SRVCC_HO_Indication", 226%N); ("RANAP_ProtocolIE_ID_id_SRVCC_Information", 227%N);
    ("RANAP_ProtocolIE_ID_id_SRVCC_Operation_Possible", 228%N); ("RANAP_ProtocolIE_ID_id_CSG_Id_List", 229%N);
    ("RANAP_ProtocolIE_ID_id_PSRABtobeReplaced", 230%N);
    ("RANAP_ProtocolIE_ID_id_E_UTRAN_Service_Handover", 231%N);
    ("RANAP_ProtocolIE_ID_id_UE_AggregateMaximumBitRate", 233%N);
    ("RANAP_ProtocolIE_ID_id_CSG_Membership_Status", 234%N); ("RANAP_ProtocolIE_ID_id_Cell_Access_Mode", 235%N);
    ("RANAP_ProtocolIE_ID_id_IP_Source_Address", 236%N); ("RANAP_ProtocolIE_ID_id_CSFB_Information", 237%N);
    ("RANAP_ProtocolIE_ID_id_PDP_TypeInformation_extension", 238%N); ("RANAP_ProtocolIE_ID_id_MSISDN", 239%N);
    ("RANAP_ProtocolIE_ID_id_Offload_RAB_Parameters", 240%N);
    ("RANAP_ProtocolIE_ID_id_LGW_TransportLayerAddress", 241%N); ("RANAP_ProtocolIE_ID_id_Correlation_ID", 242%N);
    ("RANAP_ProtocolIE_ID_id_IRAT_Measurement_Configuration", 243%N);
    ("RANAP_ProtocolIE_ID_id_MDT_Configuration", 244%N);
    ("RANAP_ProtocolIE_ID_id_Priority_Class_Indicator", 245%N);
    ("RANAP_ProtocolIE_ID_id_RNSAPRelocationParameters", 247%N);
    ("RANAP_ProtocolIE_ID_id_RABParametersList", 248%N);
    ("RANAP_ProtocolIE_ID_id_Management_Based_MDT_Allowed", 249%N);
    ("RANAP_ProtocolIE_ID_id_HigherBitratesThan16MbpsFlag", 250%N);
    ("RANAP_ProtocolIE_ID_id_Trace_Collection_Entity_IP_Addess", 251%N);
    ("RANAP_ProtocolIE_ID_id_End_Of_CSFB", 252%N);
    ("RANAP_ProtocolIE_ID_id_Time_UE_StayedInCell_EnhancedGranularity", 253%N);
    ("RANAP_ProtocolIE_ID_id_Out_Of_UTRAN", 254%N);
    ("RANAP_ProtocolIE_ID_id_TraceRecordingSessionReference", 255%N); ("RANAP_ProtocolIE_ID_id_IMSI", 256%N);
    ("RANAP_ProtocolIE_ID_id_HO_Cause", 257%N); ("RANAP_ProtocolIE_ID_id_VoiceSupportMatchIndicator", 258%N);
    ("RANAP_ProtocolIE_ID_id_RSRVCC_HO_Indication", 259%N); ("RANAP_ProtocolIE_ID_id_RSRVCC_Information", 260%N);
    ("RANAP_ProtocolIE_ID_id_AnchorPLMN_ID", 261%N); ("RANAP_ProtocolIE_ID_id_Tunnel_Information_for_BBF", 262%N);
    ("RANAP_ProtocolIE_ID_id_Management_Based_MDT_PLMN_List", 263%N);
    ("RANAP_ProtocolIE_ID_id_SignallingBasedMDTPLMNList", 264%N); ("RANAP_ProtocolIE_ID_id_M4Report", 265%N);
    ("RANAP_ProtocolIE_ID_id_M5Report", 266%N); ("RANAP_ProtocolIE_ID_id_M6Report", 267%N);
    ("RANAP_ProtocolIE_ID_id_M7Report", 268%N); ("RANAP_ProtocolIE_ID_id_TimingDifferenceULDL", 269%N);
    ("RANAP_ProtocolIE_ID_id_Serving_Cell_Identifier", 270%N); ("RANAP_ProtocolIE_ID_id_EARFCN_Extended", 271%N);
    ("RANAP_ProtocolIE_ID_id_RSRVCC_Operation_Possible", 272%N);
    ("RANAP_ProtocolIE_ID_id_SIPTO_LGW_TransportLayerAddress", 273%N);
    ("RANAP_ProtocolIE_ID_id_SIPTO_Correlation_ID", 274%N); ("RANAP_ProtocolIE_ID_id_LHN_ID", 275%N);
    ("RANAP_ProtocolIE_ID_id_Session_Re_establishment_Indicator", 276%N);
    ("RANAP_ProtocolIE_ID_id_LastE_UTRANPLMNIdentity", 277%N); ("RANAP_ProtocolIE_ID_id_RSRQ_Type", 278%N);
    ("RANAP_ProtocolIE_ID_id_RSRQ_Extension", 279%N) ].
(* include/osmocom/ranap/RANAP_Criticality.h *)
Definition ranap_criticalities : list (string * Z) :=
  [ ("RANAP_Criticality_reject", 0%Z); ("RANAP_Criticality_ignore", 1%Z); ("RANAP_Criticality_notify", 2%Z) ].

(* include/osmocom/rua/RUA_*.h: typedef ... *)
Definition rua_types : list string :=
  [ "RUA_Ansi_41_IDNNS_t"; "RUA_CN_DomainIndicator_t"; "RUA_CSGMembershipStatus_t"; "RUA_CauseMisc_t";
    "RUA_CauseProtocol_t"; "RUA_CauseRadioNetwork_t"; "RUA_CauseTransport_t"; "RUA_Cause_t"; "RUA_Connect_t";
    "RUA_ConnectionlessTransfer_t"; "RUA_Context_ID_t"; "RUA_CriticalityDiagnostics_IE_List_Value_t";
    "RUA_CriticalityDiagnostics_IE_List_t"; "RUA_CriticalityDiagnostics_t"; "RUA_Criticality_t";
    "RUA_DirectTransfer_t"; "RUA_Disconnect_t"; "RUA_ErrorIndication_t"; "RUA_Establishment_Cause_t";
    "RUA_Gsm_map_IDNNS_t"; "RUA_IE_Extensions_t"; "RUA_IE_t"; "RUA_InitiatingMessage_t";
    "RUA_IntraDomainNasNodeSelector_t"; "RUA_Presence_t"; "RUA_PrivateIE_ID_t"; "RUA_PrivateMessage_t";
    "RUA_ProcedureCode_t"; "RUA_ProtocolIE_ID_t"; "RUA_RANAP_Message_t"; "RUA_RUA_PDU_t";
    "RUA_RoutingParameter_t"; "RUA_SuccessfulOutcome_t"; "RUA_TriggeringMessage_t"; "RUA_TypeOfError_t";
    "RUA_UnsuccessfulOutcome_t" ].
(* include/osmocom/rua/RUA_*.h: structures that contain a list: type, member, type of the elements *)
Definition rua_lists : list (string * string * string) :=
  [ ("RUA_Connect_t", "connect_ies", "RUA_IE_t");
    ("RUA_ConnectionlessTransfer_t", "connectionlessTransfer_ies", "RUA_IE_t");
    ("RUA_DirectTransfer_t", "directTransfer_ies", "RUA_IE_t");
    ("RUA_Disconnect_t", "disconnect_ies", "RUA_IE_t");
    ("RUA_ErrorIndication_t", "errorIndication_ies", "RUA_IE_t");
    ("RUA_PrivateMessage_t", "privateMessage_ies", "RUA_IE_t") ].
(* include/osmocom/rua/RUA_ProtocolIE-ID.h *)
Definition rua_ids : list (string * N) :=
  [ ("RUA_ProtocolIE_ID_id_Cause", 1%N); ("RUA_ProtocolIE_ID_id_CriticalityDiagnostics", 2%N);
    ("RUA_ProtocolIE_ID_id_Context_ID", 3%N); ("RUA_ProtocolIE_ID_id_RANAP_Message", 4%N);
    ("RUA_ProtocolIE_ID_id_IntraDomainNasNodeSelector", 5%N); ("RUA_ProtocolIE_ID_id_Establishment_Cause", 6%N);
    ("RUA_ProtocolIE_ID_id_CN_DomainIndicator", 7%N); ("RUA_ProtocolIE_ID_id_CSGMembershipStatus", 9%N) ].
(* include/osmocom/rua/RUA_Criticality.h *)
Definition rua_criticalities : list (string * Z) :=
  [ ("RUA_Criticality_reject", 0%Z); ("RUA_Criticality_ignore", 1%Z); ("RUA_Criticality_notify", 2%Z) ].

(* include/osmocom/hnbap/HNBAP_*.h: typedef ... *)
Definition hnbap_types : list string :=
  [ "HNBAP_AccessResult_t"; "HNBAP_Access_stratum_release_indicator_t"; "HNBAP_AdditionalNeighbourInfoList_t";
    "HNBAP_AltitudeAndDirection_t"; "HNBAP_BackoffTimer_t"; "HNBAP_BindingID_t";
    "HNBAP_CELL_FACHMobilitySupport_t"; "HNBAP_CGI_t"; "HNBAP_CI_t"; "HNBAP_CN_DomainIndicator_t";
    "HNBAP_CSGMembershipStatus_t"; "HNBAP_CSGMembershipUpdate_t"; "HNBAP_CSG_Capability_t"; "HNBAP_CSG_ID_t";
    "HNBAP_CauseMisc_t"; "HNBAP_CauseProtocol_t"; "HNBAP_CauseRadioNetwork_t"; "HNBAP_CauseTransport_t";
    "HNBAP_Cause_t"; "HNBAP_CellIdentity_t"; "HNBAP_ConfigurationInformation_t"; "HNBAP_Context_ID_t";
    "HNBAP_CriticalityDiagnostics_IE_List_Value_t"; "HNBAP_CriticalityDiagnostics_IE_List_t";
    "HNBAP_CriticalityDiagnostics_t"; "HNBAP_Criticality_t"; "HNBAP_ESN_t"; "HNBAP_ErrorIndication_t";
    "HNBAP_GTP_TEI_t"; "HNBAP_GeographicalCoordinates_t"; "HNBAP_GeographicalLocation_t"; "HNBAP_HNBAP_PDU_t";
    "HNBAP_HNBCapacity_t"; "HNBAP_HNBConfigInfo_t"; "HNBAP_HNBConfigTransferRequest_t";
    "HNBAP_HNBConfigTransferResponse_t"; "HNBAP_HNBConfigurationInformationMissing_t";
    "HNBAP_HNBConfigurationInformationProvided_t"; "HNBAP_HNBDe_Register_t"; "HNBAP_HNBRegisterAccept_t";
    "HNBAP_HNBRegisterReject_t"; "HNBAP_HNBRegisterRequest_t"; "HNBAP_HNB_Cell_Access_Mode_t";
    "HNBAP_HNB_Cell_Identifier_t"; "HNBAP_HNB_GWResponse_t"; "HNBAP_HNB_Identity_Info_t"; "HNBAP_HNB_Identity_t";
    "HNBAP_HNB_Location_Information_t"; "HNBAP_HNB_RNL_Identity_t"; "HNBAP_IE_Extensions_t"; "HNBAP_IE_t";
    "HNBAP_IMEI_t"; "HNBAP_IMSIDS41_t"; "HNBAP_IMSIESN_t"; "HNBAP_IMSI_t"; "HNBAP_IP_Address_t";
    "HNBAP_InitiatingMessage_t"; "HNBAP_Ipv4Address_t"; "HNBAP_Ipv6Address_t";
    "HNBAP_Iurh_Signalling_TNL_AddressList_t"; "HNBAP_LAC_t"; "HNBAP_LAI_t"; "HNBAP_MacroCellID_t";
    "HNBAP_MacroCoverageInformation_t"; "HNBAP_MuxPortNumber_t"; "HNBAP_NeighbourCellIdentityList_t";
    "HNBAP_NeighbourIdentity_t"; "HNBAP_NeighbourInfoList_t"; "HNBAP_NeighbourInfoRequestItem_t";
    "HNBAP_NeighbourInfoRequestList_t"; "HNBAP_PLMNidentity_t"; "HNBAP_PSC_t"; "HNBAP_PTMSIRAI_t";
    "HNBAP_PTMSI_t"; "HNBAP_Presence_t"; "HNBAP_PrivateIE_ID_t"; "HNBAP_PrivateMessage_t";
    "HNBAP_ProcedureCode_t"; "HNBAP_ProtocolIE_ID_t"; "HNBAP_RABListItem_t"; "HNBAP_RABList_t"; "HNBAP_RAB_ID_t";
    "HNBAP_RAC_t"; "HNBAP_RAI_t"; "HNBAP_RNC_ID_t"; "HNBAP_Registration_Cause_t"; "HNBAP_RelocationComplete_t";
    "HNBAP_SAC_t"; "HNBAP_S_RNTIPrefix_t"; "HNBAP_SuccessfulOutcome_t"; "HNBAP_TMSIDS41_t"; "HNBAP_TMSILAI_t";
    "HNBAP_TNLUpdateFailure_t"; "HNBAP_TNLUpdateRequest_t"; "HNBAP_TNLUpdateResponse_t"; "HNBAP_TransportInfo_t";
    "HNBAP_TransportLayerAddress_t"; "HNBAP_TriggeringMessage_t"; "HNBAP_Tunnel_Information_t";
    "HNBAP_TypeOfError_t"; "HNBAP_UDP_Port_Number_t"; "HNBAP_UEDe_Register_t"; "HNBAP_UERegisterAccept_t";
    "HNBAP_UERegisterReject_t"; "HNBAP_UERegisterRequest_t"; "HNBAP_UE_Capabilities_t"; "HNBAP_UE_Identity_t";
    "HNBAP_URAIdentityList_t"; "HNBAP_URAIdentity_t"; "HNBAP_UTRANCellID_t"; "HNBAP_U_RNTIQueryRequest_t";
    "HNBAP_U_RNTIQueryResponse_t"; "HNBAP_U_RNTI_t"; "HNBAP_UnknownU_RNTIIndication_t";
    "HNBAP_UnsuccessfulOutcome_t"; "HNBAP_Update_cause_t" ].
(* include/osmocom/hnbap/HNBAP_*.h: structures that contain a list: type, member, type of the elements *)
Definition hnbap_lists : list (string * string * string) :=
  [ ("HNBAP_CSGMembershipUpdate_t", "csgMembershipUpdate_ies", "HNBAP_IE_t");
    ("HNBAP_ErrorIndication_t", "errorIndication_ies", "HNBAP_IE_t");
    ("HNBAP_HNBConfigTransferRequest_t", "hnbConfigTransferRequest_ies", "HNBAP_IE_t");
    ("HNBAP_HNBConfigTransferResponse_t", "hnbConfigTransferResponse_ies", "HNBAP_IE_t");
    ("HNBAP_HNBDe_Register_t", "hnbDe_Register_ies", "HNBAP_IE_t");
    ("HNBAP_HNBRegisterAccept_t", "hnbRegisterAccept_ies", "HNBAP_IE_t");
    ("HNBAP_HNBRegisterReject_t", "hnbRegisterReject_ies", "HNBAP_IE_t");
    ("HNBAP_HNBRegisterRequest_t", "hnbRegisterRequest_ies", "HNBAP_IE_t");
    ("HNBAP_PrivateMessage_t", "privateMessage_ies", "HNBAP_IE_t");
    ("HNBAP_RelocationComplete_t", "relocationComplete_ies", "HNBAP_IE_t");
    ("HNBAP_TNLUpdateFailure_t", "tnlUpdateFailure_ies", "HNBAP_IE_t");
    ("HNBAP_TNLUpdateRequest_t", "tnlUpdateRequest_ies", "HNBAP_IE_t");
    ("HNBAP_TNLUpdateResponse_t", "tnlUpdateResponse_ies", "HNBAP_IE_t");
    ("HNBAP_UEDe_Register_t", "ueDe_Register_ies", "HNBAP_IE_t");
    ("HNBAP_UERegisterAccept_t", "ueRegisterAccept_ies", "HNBAP_IE_t");
    ("HNBAP_UERegisterReject_t", "ueRegisterReject_ies", "HNBAP_IE_t");
    ("HNBAP_UERegisterRequest_t", "ueRegisterRequest_ies", "HNBAP_IE_t");
    ("HNBAP_U_RNTIQueryRequest_t", "u_RNTIQueryRequest_ies", "HNBAP_IE_t");
    ("HNBAP_U_RNTIQueryResponse_t", "u_RNTIQueryResponse_ies", "HNBAP_IE_t") ].
(* include/osmocom/hnbap/HNBAP_ProtocolIE-ID.h *)
Definition hnbap_ids : list (string * N) :=
  [ ("HNBAP_ProtocolIE_ID_id_Cause", 1%N); ("HNBAP_ProtocolIE_ID_id_CriticalityDiagnostics", 2%N);
    ("HNBAP_ProtocolIE_ID_id_HNB_Identity", 3%N); ("HNBAP_ProtocolIE_ID_id_Context_ID", 4%N);
    ("HNBAP_ProtocolIE_ID_id_UE_Identity", 5%N); ("HNBAP_ProtocolIE_ID_id_LAC", 6%N);
    ("HNBAP_ProtocolIE_ID_id_RAC", 7%N); ("HNBAP_ProtocolIE_ID_id_HNB_Location_Information", 8%N);
    ("HNBAP_ProtocolIE_ID_id_PLMNidentity", 9%N); ("HNBAP_ProtocolIE_ID_id_SAC", 10%N);
    ("HNBAP_ProtocolIE_ID_id_CellIdentity", 11%N); ("HNBAP_ProtocolIE_ID_id_Registration_Cause", 12%N);
    ("HNBAP_ProtocolIE_ID_id_UE_Capabilities", 13%N); ("HNBAP_ProtocolIE_ID_id_RNC_ID", 14%N);
    ("HNBAP_ProtocolIE_ID_id_CSG_ID", 15%N); ("HNBAP_ProtocolIE_ID_id_BackoffTimer", 16%N);
    ("HNBAP_ProtocolIE_ID_id_HNB_Internet_Information", 17%N);
    ("HNBAP_ProtocolIE_ID_id_HNB_Cell_Access_Mode", 18%N); ("HNBAP_ProtocolIE_ID_id_MuxPortNumber", 19%N);
    ("HNBAP_ProtocolIE_ID_id_Service_Area_For_Broadcast", 20%N);
    ("HNBAP_ProtocolIE_ID_id_CSGMembershipStatus", 21%N); ("HNBAP_ProtocolIE_ID_id_RABList", 22%N);
    ("HNBAP_ProtocolIE_ID_id_HNBConfigInfo", 23%N); ("HNBAP_ProtocolIE_ID_id_AccessResult", 25%N);
    ("HNBAP_ProtocolIE_ID_id_Update_cause", 26%N); ("HNBAP_ProtocolIE_ID_id_NeighbourInfoList", 27%N);
    ("HNBAP_ProtocolIE_ID_id_NeighbourInfoRequestList", 28%N);
    ("HNBAP_ProtocolIE_ID_id_Iurh_Signalling_TNL_Address", 29%N); ("HNBAP_ProtocolIE_ID_id_PSC", 30%N);
    ("HNBAP_ProtocolIE_ID_id_HNB_Cell_Identifier", 31%N); ("HNBAP_ProtocolIE_ID_id_Tunnel_Information", 41%N);
    ("HNBAP_ProtocolIE_ID_id_CELL_FACHMobilitySupport", 42%N); ("HNBAP_ProtocolIE_ID_id_S_RNTIPrefix", 43%N);
    ("HNBAP_ProtocolIE_ID_id_URAIdentity", 44%N); ("HNBAP_ProtocolIE_ID_id_NeighbourIdentity", 45%N);
    ("HNBAP_ProtocolIE_ID_id_HNBCapacity", 46%N); ("HNBAP_ProtocolIE_ID_id_NeighbourCellIdentityList", 47%N);
    ("HNBAP_ProtocolIE_ID_id_AdditionalNeighbourInfoList", 48%N); ("HNBAP_ProtocolIE_ID_id_U_RNTI", 49%N);
    ("HNBAP_ProtocolIE_ID_id_UnknownU_RNTIIndication", 50%N); ("HNBAP_ProtocolIE_ID_id_HNB_GWResponse", 51%N);
    ("HNBAP_ProtocolIE_ID_id_URAIdentityList", 52%N) ].
(* include/osmocom/hnbap/HNBAP_Criticality.h *)
Definition hnbap_criticalities : list (string * Z) :=
  [ ("HNBAP_Criticality_reject", 0%Z); ("HNBAP_Criticality_ignore", 1%Z); ("HNBAP_Criticality_notify", 2%Z) ].

(* include/osmocom/sabp/SABP_*.h: typedef ... *)
Definition sabp_types : list string :=
  [ "SABP_Available_Bandwidth_t"; "SABP_Broadcast_Message_Content_Validity_Indicator_t";
    "SABP_Broadcast_Message_Content_t"; "SABP_Category_t"; "SABP_Cause_t";
    "SABP_CriticalityDiagnostics_IE_List_Value_t"; "SABP_CriticalityDiagnostics_IE_List_t";
    "SABP_Criticality_Diagnostics_t"; "SABP_Criticality_t"; "SABP_Data_Coding_Scheme_t";
    "SABP_Error_Indication_t"; "SABP_Failure_List_Item_t"; "SABP_Failure_List_t"; "SABP_Failure_t";
    "SABP_IE_Extensions_t"; "SABP_IE_t"; "SABP_InitiatingMessage_t"; "SABP_Kill_Complete_t";
    "SABP_Kill_Failure_t"; "SABP_Kill_t"; "SABP_Load_Query_Complete_t"; "SABP_Load_Query_Failure_t";
    "SABP_Load_Query_t"; "SABP_MessageStructure_Value_t"; "SABP_MessageStructure_t"; "SABP_Message_Identifier_t";
    "SABP_Message_Status_Query_Complete_t"; "SABP_Message_Status_Query_Failure_t"; "SABP_Message_Status_Query_t";
    "SABP_New_Serial_Number_t"; "SABP_Number_Of_Broadcasts_Completed_Info_t";
    "SABP_Number_of_Broadcasts_Completed_List_Item_t"; "SABP_Number_of_Broadcasts_Completed_List_t";
    "SABP_Number_of_Broadcasts_Requested_t"; "SABP_Old_Serial_Number_t"; "SABP_Paging_ETWS_Indicator_t";
    "SABP_Presence_t"; "SABP_ProcedureCode_t"; "SABP_ProtocolExtensionID_t"; "SABP_ProtocolIE_ID_t";
    "SABP_Radio_Resource_Loading_List_Item_t"; "SABP_Radio_Resource_Loading_List_t"; "SABP_Recovery_Indication_t";
    "SABP_RepetitionNumber0_t"; "SABP_RepetitionNumber1_t"; "SABP_Repetition_Period_t"; "SABP_Reset_Complete_t";
    "SABP_Reset_Failure_t"; "SABP_Reset_t"; "SABP_Restart_t"; "SABP_SABP_PDU_t"; "SABP_Serial_Number_t";
    "SABP_Service_Area_Identifier_t"; "SABP_Service_Areas_List_t"; "SABP_SuccessfulOutcome_t";
    "SABP_TriggeringMessage_t"; "SABP_TypeOfError_t"; "SABP_UnsuccessfulOutcome_t"; "SABP_WarningSecurityInfo_t";
    "SABP_Warning_Type_t"; "SABP_Write_Replace_Complete_t"; "SABP_Write_Replace_Failure_t";
    "SABP_Write_Replace_t" ].
(* include/osmocom/sabp/SABP_*.h: structures that contain a list: type, member, type of the elements *)
Definition sabp_lists : list (string * string * string) :=
  [ ("SABP_Error_Indication_t", "error_Indication_ies", "SABP_IE_t");
    ("SABP_Failure_t", "failure_ies", "SABP_IE_t"); ("SABP_Kill_Complete_t", "kill_Complete_ies", "SABP_IE_t");
    ("SABP_Kill_Failure_t", "kill_Failure_ies", "SABP_IE_t"); ("SABP_Kill_t", "kill_ies", "SABP_IE_t");
    ("SABP_Load_Query_Complete_t", "load_Query_Complete_ies", "SABP_IE_t");
    ("SABP_Load_Query_Failure_t", "load_Query_Failure_ies", "SABP_IE_t");
    ("SABP_Load_Query_t", "load_Query_ies", "SABP_IE_t");
    ("SABP_Message_Status_Query_Complete_t", "message_Status_Query_Complete_ies", "SABP_IE_t");
    ("SABP_Message_Status_Query_Failure_t", "message_Status_Query_Failure_ies", "SABP_IE_t");
    ("SABP_Message_Status_Query_t", "message_Status_Query_ies", "SABP_IE_t");
    ("SABP_Reset_Complete_t", "reset_Complete_ies", "SABP_IE_t");
    ("SABP_Reset_Failure_t", "reset_Failure_ies", "SABP_IE_t"); ("SABP_Reset_t", "reset_ies", "SABP_IE_t");
    ("SABP_Restart_t", "restart_ies", "SABP_IE_t");
    ("SABP_Write_Replace_Complete_t", "write_Replace_Complete_ies", "SABP_IE_t");
    ("SABP_Write_Replace_Failure_t", "write_Replace_Failure_ies", "SABP_IE_t");
    ("SABP_Write_Replace_t", "write_Replace_ies", "SABP_IE_t") ].
(* include/osmocom/sabp/SABP_ProtocolIE-ID.h *)
Definition sabp_ids : list (string * N) :=
  [ ("SABP_ProtocolIE_ID_id_Broadcast_Message_Content", 0%N); ("SABP_ProtocolIE_ID_id_Category", 1%N);
    ("SABP_ProtocolIE_ID_id_Cause", 2%N); ("SABP_ProtocolIE_ID_id_Data_Coding_Scheme", 4%N);
    ("SABP_ProtocolIE_ID_id_Failure_List", 5%N); ("SABP_ProtocolIE_ID_id_Message_Identifier", 6%N);
    ("SABP_ProtocolIE_ID_id_New_Serial_Number", 7%N);
    ("SABP_ProtocolIE_ID_id_Number_of_Broadcasts_Completed_List", 8%N);
    ("SABP_ProtocolIE_ID_id_Number_of_Broadcasts_Requested", 9%N);
    ("SABP_ProtocolIE_ID_id_Old_Serial_Number", 10%N);
    ("SABP_ProtocolIE_ID_id_Radio_Resource_Loading_List", 11%N);
    ("SABP_ProtocolIE_ID_id_Recovery_Indication", 12%N); ("SABP_ProtocolIE_ID_id_Repetition_Period", 13%N);
    ("SABP_ProtocolIE_ID_id_Serial_Number", 14%N); ("SABP_ProtocolIE_ID_id_Service_Areas_List", 15%N);
    ("SABP_ProtocolIE_ID_id_MessageStructure", 16%N); ("SABP_ProtocolIE_ID_id_TypeOfError", 17%N);
    ("SABP_ProtocolIE_ID_id_Paging_ETWS_Indicator", 18%N); ("SABP_ProtocolIE_ID_id_Warning_Type", 19%N);
    ("SABP_ProtocolIE_ID_id_WarningSecurityInfo", 20%N);
    ("SABP_ProtocolIE_ID_id_Broadcast_Message_Content_Validity_Indicator", 21%N) ].
(* include/osmocom/sabp/SABP_Criticality.h *)
Definition sabp_criticalities : list (string * Z) :=
  [ ("SABP_Criticality_reject", 0%Z); ("SABP_Criticality_ignore", 1%Z); ("SABP_Criticality_notify", 2%Z) ].

(* src/*.c, tests/*.c: members of a structure that are used: file, line, type of the structure, member *)
Definition members_used : list (string * N * string * string) :=
  [ ("src/iu_client.c", 462%N, "RANAP_InitialUE_MessageIEs_t", "lai");
    ("src/iu_client.c", 467%N, "RANAP_InitialUE_MessageIEs_t", "presenceMask");
    ("src/iu_client.c", 468%N, "RANAP_InitialUE_MessageIEs_t", "rac");
    ("src/iu_client.c", 478%N, "RANAP_InitialUE_MessageIEs_t", "globalRNC_ID");
    ("src/iu_client.c", 484%N, "RANAP_InitialUE_MessageIEs_t", "sai");
    ("src/iu_client.c", 485%N, "RANAP_InitialUE_MessageIEs_t", "nas_pdu");
    ("src/iu_client.c", 486%N, "RANAP_InitialUE_MessageIEs_t", "nas_pdu");
    ("src/iu_client.c", 486%N, "RANAP_InitialUE_MessageIEs_t", "nas_pdu");
    ("src/iu_client.c", 512%N, "RANAP_DirectTransferIEs_t", "presenceMask");
    ("src/iu_client.c", 513%N, "RANAP_DirectTransferIEs_t", "lai");
    ("src/iu_client.c", 518%N, "RANAP_DirectTransferIEs_t", "presenceMask");
    ("src/iu_client.c", 519%N, "RANAP_DirectTransferIEs_t", "rac");
    ("src/iu_client.c", 521%N, "RANAP_DirectTransferIEs_t", "presenceMask");
    ("src/iu_client.c", 522%N, "RANAP_DirectTransferIEs_t", "sai");
    ("src/iu_client.c", 527%N, "RANAP_DirectTransferIEs_t", "nas_pdu");
    ("src/iu_client.c", 528%N, "RANAP_DirectTransferIEs_t", "nas_pdu");
    ("src/iu_client.c", 528%N, "RANAP_DirectTransferIEs_t", "nas_pdu");
    ("src/iu_client.c", 541%N, "RANAP_ErrorIndicationIEs_t", "presenceMask");
    ("src/iu_client.c", 543%N, "RANAP_ErrorIndicationIEs_t", "cause");
    ("src/iu_client.c", 617%N, "RANAP_Iu_ReleaseRequestIEs_t", "cause");
    ("src/iu_client.c", 627%N, "RANAP_RAB_AssignmentResponseIEs_t", "presenceMask");
    ("src/iu_client.c", 629%N, "RANAP_RAB_AssignmentResponseIEs_t", "raB_SetupOrModifiedList");
    ("src/iu_client.c", 759%N, "RANAP_ResetIEs_t", "presenceMask");
    ("src/iu_client.c", 760%N, "RANAP_ResetIEs_t", "globalRNC_ID");
    ("src/iu_client.c", 763%N, "RANAP_ResetIEs_t", "cN_DomainIndicator");
    ("src/iu_client.c", 772%N, "RANAP_ErrorIndicationIEs_t", "presenceMask");
    ("src/iu_client.c", 774%N, "RANAP_ErrorIndicationIEs_t", "cause");
    ("src/ranap_common.c", 579%N, "RANAP_RAB_SetupOrModifiedItemIEs_t", "raB_SetupOrModifiedItem");
    ("src/ranap_common.c", 602%N, "RANAP_RAB_FailedItemIEs_t", "raB_FailedItem");
    ("src/ranap_common.c", 625%N, "RANAP_RAB_ReleaseItemIEs_t", "raB_ReleaseItem");
    ("src/ranap_common.c", 648%N, "RANAP_RAB_ReleasedItemIEs_t", "raB_ReleasedItem");
    ("src/ranap_msg_factory.c", 60%N, "RANAP_ResetIEs_t", "cN_DomainIndicator");
    ("src/ranap_msg_factory.c", 62%N, "RANAP_ResetIEs_t", "cause");
    ("src/ranap_msg_factory.c", 62%N, "RANAP_ResetIEs_t", "cause");
    ("src/ranap_msg_factory.c", 65%N, "RANAP_ResetIEs_t", "presenceMask");
    ("src/ranap_msg_factory.c", 66%N, "RANAP_ResetIEs_t", "globalRNC_ID");
    ("src/ranap_msg_factory.c", 69%N, "RANAP_ResetIEs_t", "globalRNC_ID");
    ("src/ranap_msg_factory.c", 100%N, "RANAP_ResetAcknowledgeIEs_t", "cN_DomainIndicator");
    ("src/ranap_msg_factory.c", 105%N, "RANAP_ResetAcknowledgeIEs_t", "presenceMask");
    ("src/ranap_msg_factory.c", 106%N, "RANAP_ResetAcknowledgeIEs_t", "globalRNC_ID");
    ("src/ranap_msg_factory.c", 109%N, "RANAP_ResetAcknowledgeIEs_t", "globalRNC_ID");
    ("src/ranap_msg_factory.c", 146%N, "RANAP_ErrorIndicationIEs_t", "presenceMask");
    ("src/ranap_msg_factory.c", 147%N, "RANAP_ErrorIndicationIEs_t", "cause");
    ("src/ranap_msg_factory.c", 147%N, "RANAP_ErrorIndicationIEs_t", "cause");
    ("src/ranap_msg_factory.c", 151%N, "RANAP_ErrorIndicationIEs_t", "presenceMask");
    ("src/ranap_msg_factory.c", 152%N, "RANAP_ErrorIndicationIEs_t", "criticalityDiagnostics");
    ("src/ranap_msg_factory.c", 152%N, "RANAP_ErrorIndicationIEs_t", "criticalityDiagnostics");
    ("src/ranap_msg_factory.c", 156%N, "RANAP_ErrorIndicationIEs_t", "presenceMask");
    ("src/ranap_msg_factory.c", 157%N, "RANAP_ErrorIndicationIEs_t", "cN_DomainIndicator");
    ("src/ranap_msg_factory.c", 161%N, "RANAP_ErrorIndicationIEs_t", "presenceMask");
    ("src/ranap_msg_factory.c", 162%N, "RANAP_ErrorIndicationIEs_t", "globalRNC_ID");
    ("src/ranap_msg_factory.c", 165%N, "RANAP_ErrorIndicationIEs_t", "globalRNC_ID");
    ("src/ranap_msg_factory.c", 200%N, "RANAP_InitialUE_MessageIEs_t", "cN_DomainIndicator");
    ("src/ranap_msg_factory.c", 202%N, "RANAP_InitialUE_MessageIEs_t", "cN_DomainIndicator");
    ("src/ranap_msg_factory.c", 204%N, "RANAP_InitialUE_MessageIEs_t", "lai");
    ("src/ranap_msg_factory.c", 205%N, "RANAP_InitialUE_MessageIEs_t", "lai");
    ("src/ranap_msg_factory.c", 207%N, "RANAP_InitialUE_MessageIEs_t", "sai");
    ("src/ranap_msg_factory.c", 208%N, "RANAP_InitialUE_MessageIEs_t", "sai");
    ("src/ranap_msg_factory.c", 209%N, "RANAP_InitialUE_MessageIEs_t", "sai");
    ("src/ranap_msg_factory.c", 211%N, "RANAP_InitialUE_MessageIEs_t", "nas_pdu");
    ("src/ranap_msg_factory.c", 212%N, "RANAP_InitialUE_MessageIEs_t", "iuSigConId");
    ("src/ranap_msg_factory.c", 213%N, "RANAP_InitialUE_MessageIEs_t", "globalRNC_ID");
    ("src/ranap_msg_factory.c", 214%N, "RANAP_InitialUE_MessageIEs_t", "globalRNC_ID");
    ("src/ranap_msg_factory.c", 247%N, "RANAP_DirectTransferIEs_t", "presenceMask");
    ("src/ranap_msg_factory.c", 250%N, "RANAP_DirectTransferIEs_t", "sapi");
    ("src/ranap_msg_factory.c", 252%N, "RANAP_DirectTransferIEs_t", "sapi");
    ("src/ranap_msg_factory.c", 255%N, "RANAP_DirectTransferIEs_t", "nas_pdu");
    ("src/ranap_msg_factory.c", 314%N, "RANAP_SecurityModeCommandIEs_t", "integrityProtectionInformation");
    ("src/ranap_msg_factory.c", 317%N, "RANAP_SecurityModeCommandIEs_t", "integrityProtectionInformation");
    ("src/ranap_msg_factory.c", 320%N, "RANAP_SecurityModeCommandIEs_t", "presenceMask");
    ("src/ranap_msg_factory.c", 334%N, "RANAP_SecurityModeCommandIEs_t", "integrityProtectionInformation");
    ("src/ranap_msg_factory.c", 342%N, "RANAP_SecurityModeCommandIEs_t", "encryptionInformation");
    ("src/ranap_msg_factory.c", 344%N, "RANAP_SecurityModeCommandIEs_t", "encryptionInformation");
    ("src/ranap_msg_factory.c", 347%N, "RANAP_SecurityModeCommandIEs_t", "keyStatus");
    ("src/ranap_msg_factory.c", 353%N, "RANAP_SecurityModeCommandIEs_t", "integrityProtectionInformation");
    ("src/ranap_msg_factory.c", 355%N, "RANAP_SecurityModeCommandIEs_t", "encryptionInformation");
    ("src/ranap_msg_factory.c", 391%N, "RANAP_SecurityModeCompleteIEs_t", "presenceMask");
    ("src/ranap_msg_factory.c", 392%N, "RANAP_SecurityModeCompleteIEs_t", "chosenIntegrityProtectionAlgorithm");
    ("src/ranap_msg_factory.c", 393%N, "RANAP_SecurityModeCompleteIEs_t", "chosenEncryptionAlgorithm");
    ("src/ranap_msg_factory.c", 428%N, "RANAP_CommonID_IEs_t", "permanentNAS_UE_ID");
    ("src/ranap_msg_factory.c", 429%N, "RANAP_CommonID_IEs_t", "permanentNAS_UE_ID");
    ("src/ranap_msg_factory.c", 430%N, "RANAP_CommonID_IEs_t", "permanentNAS_UE_ID");
    ("src/ranap_msg_factory.c", 432%N, "RANAP_CommonID_IEs_t", "permanentNAS_UE_ID");
    ("src/ranap_msg_factory.c", 438%N, "RANAP_CommonID_IEs_t", "permanentNAS_UE_ID");
    ("src/ranap_msg_factory.c", 468%N, "RANAP_Iu_ReleaseCommandIEs_t", "cause");
    ("src/ranap_msg_factory.c", 468%N, "RANAP_Iu_ReleaseCommandIEs_t", "cause");
    ("src/ranap_msg_factory.c", 533%N, "RANAP_PagingIEs_t", "cN_DomainIndicator");
    ("src/ranap_msg_factory.c", 535%N, "RANAP_PagingIEs_t", "cN_DomainIndicator");
    ("src/ranap_msg_factory.c", 538%N, "RANAP_PagingIEs_t", "permanentNAS_UE_ID");
    ("src/ranap_msg_factory.c", 539%N, "RANAP_PagingIEs_t", "permanentNAS_UE_ID");
    ("src/ranap_msg_factory.c", 540%N, "RANAP_PagingIEs_t", "permanentNAS_UE_ID");
    ("src/ranap_msg_factory.c", 544%N, "RANAP_PagingIEs_t", "presenceMask");
    ("src/ranap_msg_factory.c", 546%N, "RANAP_PagingIEs_t", "temporaryUE_ID");
    ("src/ranap_msg_factory.c", 547%N, "RANAP_PagingIEs_t", "temporaryUE_ID");
    ("src/ranap_msg_factory.c", 549%N, "RANAP_PagingIEs_t", "temporaryUE_ID");
    ("src/ranap_msg_factory.c", 550%N, "RANAP_PagingIEs_t", "temporaryUE_ID");
    ("src/ranap_msg_factory.c", 555%N, "RANAP_PagingIEs_t", "presenceMask");
    ("src/ranap_msg_factory.c", 556%N, "RANAP_PagingIEs_t", "pagingCause");
    ("src/ranap_msg_factory.c", 563%N, "RANAP_PagingIEs_t", "permanentNAS_UE_ID");
    ("src/ranap_msg_factory.c", 564%N, "RANAP_PagingIEs_t", "temporaryUE_ID");
    ("src/ranap_msg_factory.c", 811%N, "RANAP_RAB_AssignmentRequestIEs_t", "presenceMask");
    ("src/ranap_msg_factory.c", 845%N, "RANAP_RAB_AssignmentRequestIEs_t", "raB_SetupOrModifyList");
    ("src/ranap_msg_factory.c", 852%N, "RANAP_RAB_AssignmentRequestIEs_t", "raB_SetupOrModifyList");
    ("src/ranap_msg_factory.c", 884%N, "RANAP_RAB_AssignmentRequestIEs_t", "presenceMask");
    ("src/ranap_msg_factory.c", 927%N, "RANAP_RAB_AssignmentRequestIEs_t", "raB_SetupOrModifyList");
    ("src/ranap_msg_factory.c", 934%N, "RANAP_RAB_AssignmentRequestIEs_t", "raB_SetupOrModifyList");
    ("src/ranap_msg_factory.c", 960%N, "RANAP_Iu_ReleaseRequestIEs_t", "cause");
    ("src/ranap_msg_factory.c", 960%N, "RANAP_Iu_ReleaseRequestIEs_t", "cause");
    ("src/ranap_msg_factory.c", 993%N, "RANAP_RAB_ReleaseItemIEs_t", "raB_ReleaseItem");
    ("src/ranap_msg_factory.c", 994%N, "RANAP_RAB_ReleaseItemIEs_t", "raB_ReleaseItem");
    ("src/ranap_msg_factory.c", 994%N, "RANAP_RAB_ReleaseItemIEs_t", "raB_ReleaseItem");
    ("src/ranap_msg_factory.c", 997%N, "RANAP_RAB_ReleaseRequestIEs_t", "raB_ReleaseList");
    ("src/ranap_msg_factory.c", 1000%N, "RANAP_RAB_ReleaseItemIEs_t", "raB_ReleaseItem");
    ("src/ranap_msg_factory.c", 1006%N, "RANAP_RAB_ReleaseRequestIEs_t", "raB_ReleaseList");
    ("src/ranap_msg_factory.c", 1045%N, "RANAP_ResetResourceIEs_t", "cN_DomainIndicator");
    ("src/ranap_msg_factory.c", 1048%N, "RANAP_ResetResourceIEs_t", "cause");
    ("src/ranap_msg_factory.c", 1048%N, "RANAP_ResetResourceIEs_t", "cause");
    ("src/ranap_msg_factory.c", 1055%N, "RANAP_ResetResourceItemIEs_t", "iuSigConIdItem");
    ("src/ranap_msg_factory.c", 1058%N, "RANAP_ResetResourceIEs_t", "iuSigConIdList");
    ("src/ranap_msg_factory.c", 1064%N, "RANAP_ResetResourceIEs_t", "presenceMask");
    ("src/ranap_msg_factory.c", 1065%N, "RANAP_ResetResourceIEs_t", "globalRNC_ID");
    ("src/ranap_msg_factory.c", 1068%N, "RANAP_ResetResourceIEs_t", "globalRNC_ID");
    ("src/ranap_msg_factory.c", 1075%N, "RANAP_ResetResourceIEs_t", "iuSigConIdList");
    ("src/rua_msg_factory.c", 21%N, "RUA_ConnectionlessTransferIEs_t", "ranaP_Message");
    ("src/rua_msg_factory.c", 53%N, "RUA_ConnectIEs_t", "cN_DomainIndicator");
    ("src/rua_msg_factory.c", 55%N, "RUA_ConnectIEs_t", "cN_DomainIndicator");
    ("src/rua_msg_factory.c", 56%N, "RUA_ConnectIEs_t", "context_ID");
    ("src/rua_msg_factory.c", 57%N, "RUA_ConnectIEs_t", "establishment_Cause");
    ("src/rua_msg_factory.c", 58%N, "RUA_ConnectIEs_t", "ranaP_Message");
    ("src/rua_msg_factory.c", 90%N, "RUA_DirectTransferIEs_t", "cN_DomainIndicator");
    ("src/rua_msg_factory.c", 92%N, "RUA_DirectTransferIEs_t", "cN_DomainIndicator");
    ("src/rua_msg_factory.c", 93%N, "RUA_DirectTransferIEs_t", "context_ID");
    ("src/rua_msg_factory.c", 94%N, "RUA_DirectTransferIEs_t", "ranaP_Message");
    ("src/rua_msg_factory.c", 126%N, "RUA_DisconnectIEs_t", "cN_DomainIndicator");
    ("src/rua_msg_factory.c", 128%N, "RUA_DisconnectIEs_t", "cN_DomainIndicator");
    ("src/rua_msg_factory.c", 129%N, "RUA_DisconnectIEs_t", "context_ID");
    ("src/rua_msg_factory.c", 131%N, "RUA_DisconnectIEs_t", "cause");
    ("src/rua_msg_factory.c", 132%N, "RUA_DisconnectIEs_t", "cause");
    ("src/rua_msg_factory.c", 134%N, "RUA_DisconnectIEs_t", "presenceMask");
    ("src/rua_msg_factory.c", 135%N, "RUA_DisconnectIEs_t", "ranaP_Message");
    ("tests/hnb-test-rua.c", 19%N, "RUA_DirectTransferIEs_t", "ranaP_Message");
    ("tests/hnb-test-rua.c", 19%N, "RUA_DirectTransferIEs_t", "ranaP_Message");
    ("tests/hnb-test-rua.c", 36%N, "RUA_ConnectionlessTransferIEs_t", "ranaP_Message");
    ("tests/hnb-test-rua.c", 36%N, "RUA_ConnectionlessTransferIEs_t", "ranaP_Message");
    ("tests/hnb-test.c", 124%N, "HNBAP_UERegisterRequestIEs_t", "uE_Identity");
    ("tests/hnb-test.c", 127%N, "HNBAP_UERegisterRequestIEs_t", "uE_Identity");
    ("tests/hnb-test.c", 129%N, "HNBAP_UERegisterRequestIEs_t", "registration_Cause");
    ("tests/hnb-test.c", 130%N, "HNBAP_UERegisterRequestIEs_t", "uE_Capabilities");
    ("tests/hnb-test.c", 131%N, "HNBAP_UERegisterRequestIEs_t", "uE_Capabilities");
    ("tests/hnb-test.c", 158%N, "HNBAP_HNBRegisterAcceptIEs_t", "rnc_id");
    ("tests/hnb-test.c", 177%N, "HNBAP_UERegisterAcceptIEs_t", "uE_Identity");
    ("tests/hnb-test.c", 182%N, "HNBAP_UERegisterAcceptIEs_t", "context_ID");
    ("tests/hnb-test.c", 184%N, "HNBAP_UERegisterAcceptIEs_t", "uE_Identity");
    ("tests/hnb-test.c", 185%N, "HNBAP_UERegisterAcceptIEs_t", "uE_Identity");
    ("tests/hnb-test.c", 669%N, "HNBAP_HNBRegisterRequestIEs_t", "lac");
    ("tests/hnb-test.c", 670%N, "HNBAP_HNBRegisterRequestIEs_t", "sac");
    ("tests/hnb-test.c", 671%N, "HNBAP_HNBRegisterRequestIEs_t", "rac");
    ("tests/hnb-test.c", 672%N, "HNBAP_HNBRegisterRequestIEs_t", "cellIdentity");
    ("tests/hnb-test.c", 674%N, "HNBAP_HNBRegisterRequestIEs_t", "hnB_Identity");
    ("tests/hnb-test.c", 675%N, "HNBAP_HNBRegisterRequestIEs_t", "hnB_Identity");
    ("tests/hnb-test.c", 677%N, "HNBAP_HNBRegisterRequestIEs_t", "plmNidentity");
    ("tests/hnb-test.c", 678%N, "HNBAP_HNBRegisterRequestIEs_t", "plmNidentity");
    ("tests/hnb-test.c", 707%N, "HNBAP_HNBDe_RegisterIEs_t", "cause");
    ("tests/hnb-test.c", 708%N, "HNBAP_HNBDe_RegisterIEs_t", "cause");
    ("tests/test-hnbap.c", 105%N, "HNBAP_HNBRegisterRequestIEs_t", "lac");
    ("tests/test-hnbap.c", 106%N, "HNBAP_HNBRegisterRequestIEs_t", "sac");
    ("tests/test-hnbap.c", 107%N, "HNBAP_HNBRegisterRequestIEs_t", "rac");
    ("tests/test-hnbap.c", 108%N, "HNBAP_HNBRegisterRequestIEs_t", "cellIdentity");
    ("tests/test-hnbap.c", 115%N, "HNBAP_HNBRegisterRequestIEs_t", "hnB_Identity");
    ("tests/test-hnbap.c", 117%N, "HNBAP_HNBRegisterRequestIEs_t", "hnB_Identity");
    ("tests/test-hnbap.c", 133%N, "HNBAP_UERegisterRequestIEs_t", "uE_Identity");
    ("tests/test-hnbap.c", 134%N, "HNBAP_UERegisterRequestIEs_t", "uE_Identity");
    ("tests/test-hnbap.c", 135%N, "HNBAP_UERegisterRequestIEs_t", "uE_Identity");
    ("tests/test-hnbap.c", 156%N, "HNBAP_UERegisterAcceptIEs_t", "uE_Identity");
    ("tests/test-hnbap.c", 157%N, "HNBAP_UERegisterAcceptIEs_t", "uE_Identity");
    ("tests/test-hnbap.c", 158%N, "HNBAP_UERegisterAcceptIEs_t", "uE_Identity") ].
(* the same, by way of the union of all messages: file, line, member of the union, member of the structure *)
(* src/*.c, tests/*.c *)
Definition union_members_used : list (string * N * string * string) :=
  [ ("tests/hnb-test-ranap.c", 30%N, "directTransferIEs", "presenceMask");
    ("tests/hnb-test-ranap.c", 31%N, "directTransferIEs", "nas_pdu");
    ("tests/hnb-test-ranap.c", 33%N, "directTransferIEs", "nas_pdu");
    ("tests/hnb-test-ranap.c", 34%N, "directTransferIEs", "nas_pdu");
    ("tests/hnb-test-ranap.c", 41%N, "securityModeCommandIEs", "presenceMask");
    ("tests/hnb-test-ranap.c", 45%N, "securityModeCommandIEs", "integrityProtectionInformation");
    ("tests/hnb-test-ranap.c", 71%N, "pagingIEs", "permanentNAS_UE_ID");
    ("tests/hnb-test-ranap.c", 73%N, "pagingIEs", "permanentNAS_UE_ID");
    ("tests/hnb-test-ranap.c", 74%N, "pagingIEs", "permanentNAS_UE_ID");
    ("tests/hnb-test-ranap.c", 78%N, "pagingIEs", "presenceMask");
    ("tests/hnb-test-ranap.c", 79%N, "pagingIEs", "cN_DomainIndicator") ].
(* src/*.c, tests/*.c: flags *)
Definition flags_used : list (string * N * string) :=
  [ ("src/iu_client.c", 467%N, "INITIALUE_MESSAGEIES_RANAP_RAC_PRESENT");
    ("src/iu_client.c", 512%N, "DIRECTTRANSFERIES_RANAP_LAI_PRESENT");
    ("src/iu_client.c", 518%N, "DIRECTTRANSFERIES_RANAP_RAC_PRESENT");
    ("src/iu_client.c", 521%N, "DIRECTTRANSFERIES_RANAP_SAI_PRESENT");
    ("src/iu_client.c", 541%N, "ERRORINDICATIONIES_RANAP_CAUSE_PRESENT");
    ("src/iu_client.c", 627%N, "RAB_ASSIGNMENTRESPONSEIES_RANAP_RAB_SETUPORMODIFIEDLIST_PRESENT");
    ("src/iu_client.c", 759%N, "RESETIES_RANAP_GLOBALRNC_ID_PRESENT");
    ("src/iu_client.c", 772%N, "ERRORINDICATIONIES_RANAP_CAUSE_PRESENT");
    ("src/ranap_msg_factory.c", 65%N, "RESETIES_RANAP_GLOBALRNC_ID_PRESENT");
    ("src/ranap_msg_factory.c", 105%N, "RESETACKNOWLEDGEIES_RANAP_GLOBALRNC_ID_PRESENT");
    ("src/ranap_msg_factory.c", 146%N, "ERRORINDICATIONIES_RANAP_CAUSE_PRESENT");
    ("src/ranap_msg_factory.c", 151%N, "ERRORINDICATIONIES_RANAP_CRITICALITYDIAGNOSTICS_PRESENT");
    ("src/ranap_msg_factory.c", 156%N, "ERRORINDICATIONIES_RANAP_CN_DOMAININDICATOR_PRESENT");
    ("src/ranap_msg_factory.c", 161%N, "RESETACKNOWLEDGEIES_RANAP_GLOBALRNC_ID_PRESENT");
    ("src/ranap_msg_factory.c", 247%N, "DIRECTTRANSFERIES_RANAP_SAPI_PRESENT");
    ("src/ranap_msg_factory.c", 320%N, "SECURITYMODECOMMANDIES_RANAP_ENCRYPTIONINFORMATION_PRESENT");
    ("src/ranap_msg_factory.c", 391%N, "SECURITYMODECOMPLETEIES_RANAP_CHOSENENCRYPTIONALGORITHM_PRESENT");
    ("src/ranap_msg_factory.c", 544%N, "PAGINGIES_RANAP_TEMPORARYUE_ID_PRESENT");
    ("src/ranap_msg_factory.c", 555%N, "PAGINGIES_RANAP_PAGINGCAUSE_PRESENT");
    ("src/ranap_msg_factory.c", 811%N, "RAB_ASSIGNMENTREQUESTIES_RANAP_RAB_SETUPORMODIFYLIST_PRESENT");
    ("src/ranap_msg_factory.c", 884%N, "RAB_ASSIGNMENTREQUESTIES_RANAP_RAB_SETUPORMODIFYLIST_PRESENT");
    ("src/ranap_msg_factory.c", 1064%N, "RESETIES_RANAP_GLOBALRNC_ID_PRESENT");
    ("src/rua_msg_factory.c", 134%N, "DISCONNECTIES_RUA_RANAP_MESSAGE_PRESENT") ].
(* src/*.c, tests/*.c: calls of generated functions: file, line, function, type of the structure *)
Definition calls : list (string * N * string * string) :=
  [ ("src/iu_client.c", 640%N, "ranap_free_rab_setupormodifieditemies", "RANAP_RAB_SetupOrModifiedItemIEs_t");
    ("src/ranap_msg_factory.c", 73%N, "ranap_encode_reseties", "RANAP_ResetIEs_t");
    ("src/ranap_msg_factory.c", 115%N, "ranap_encode_resetacknowledgeies", "RANAP_ResetAcknowledgeIEs_t");
    ("src/ranap_msg_factory.c", 169%N, "ranap_encode_errorindicationies", "RANAP_ErrorIndicationIEs_t");
    ("src/ranap_msg_factory.c", 217%N, "ranap_encode_initialue_messageies", "RANAP_InitialUE_MessageIEs_t");
    ("src/ranap_msg_factory.c", 258%N, "ranap_encode_directtransferies", "RANAP_DirectTransferIEs_t");
    ("src/ranap_msg_factory.c", 350%N, "ranap_encode_securitymodecommandies", "RANAP_SecurityModeCommandIEs_t");
    ("src/ranap_msg_factory.c", 396%N, "ranap_encode_securitymodecompleteies", "RANAP_SecurityModeCompleteIEs_t");
    ("src/ranap_msg_factory.c", 435%N, "ranap_encode_commonid_ies", "RANAP_CommonID_IEs_t");
    ("src/ranap_msg_factory.c", 471%N, "ranap_encode_iu_releasecommandies", "RANAP_Iu_ReleaseCommandIEs_t");
    ("src/ranap_msg_factory.c", 501%N, "ranap_encode_iu_releasecompleteies", "RANAP_Iu_ReleaseCompleteIEs_t");
    ("src/ranap_msg_factory.c", 560%N, "ranap_encode_pagingies", "RANAP_PagingIEs_t");
    ("src/ranap_msg_factory.c", 849%N, "ranap_encode_rab_assignmentrequesties", "RANAP_RAB_AssignmentRequestIEs_t");
    ("src/ranap_msg_factory.c", 931%N, "ranap_encode_rab_assignmentrequesties", "RANAP_RAB_AssignmentRequestIEs_t");
    ("src/ranap_msg_factory.c", 962%N, "ranap_encode_iu_releaserequesties", "RANAP_Iu_ReleaseRequestIEs_t");
    ("src/ranap_msg_factory.c", 997%N, "ranap_encode_rab_releaseitemies", "RANAP_RAB_ReleaseItemIEs_t");
    ("src/ranap_msg_factory.c", 1003%N, "ranap_encode_rab_releaserequesties", "RANAP_RAB_ReleaseRequestIEs_t");
    ("src/ranap_msg_factory.c", 1058%N, "ranap_encode_resetresourceitemies", "RANAP_ResetResourceItemIEs_t");
    ("src/ranap_msg_factory.c", 1072%N, "ranap_encode_resetresourceies", "RANAP_ResetResourceIEs_t");
    ("src/rua_msg_factory.c", 25%N, "rua_encode_connectionlesstransferies", "RUA_ConnectionlessTransferIEs_t");
    ("src/rua_msg_factory.c", 62%N, "rua_encode_connecties", "RUA_ConnectIEs_t");
    ("src/rua_msg_factory.c", 98%N, "rua_encode_directtransferies", "RUA_DirectTransferIEs_t");
    ("src/rua_msg_factory.c", 140%N, "rua_encode_disconnecties", "RUA_DisconnectIEs_t");
    ("tests/hnb-test-rua.c", 13%N, "rua_decode_directtransferies", "RUA_DirectTransferIEs_t");
    ("tests/hnb-test-rua.c", 22%N, "rua_free_directtransferies", "RUA_DirectTransferIEs_t");
    ("tests/hnb-test-rua.c", 30%N, "rua_decode_connectionlesstransferies", "RUA_ConnectionlessTransferIEs_t");
    ("tests/hnb-test-rua.c", 39%N, "rua_free_connectionlesstransferies", "RUA_ConnectionlessTransferIEs_t");
    ("tests/hnb-test.c", 134%N, "hnbap_encode_ueregisterrequesties", "HNBAP_UERegisterRequestIEs_t");
    ("tests/hnb-test.c", 154%N, "hnbap_decode_hnbregisteraccepties", "HNBAP_HNBRegisterAcceptIEs_t");
    ("tests/hnb-test.c", 161%N, "hnbap_free_hnbregisteraccepties", "HNBAP_HNBRegisterAcceptIEs_t");
    ("tests/hnb-test.c", 172%N, "hnbap_decode_ueregisteraccepties", "HNBAP_UERegisterAcceptIEs_t");
    ("tests/hnb-test.c", 189%N, "hnbap_free_ueregisteraccepties", "HNBAP_UERegisterAcceptIEs_t");
    ("tests/hnb-test.c", 683%N, "hnbap_encode_hnbregisterrequesties", "HNBAP_HNBRegisterRequestIEs_t");
    ("tests/hnb-test.c", 712%N, "hnbap_encode_hnbde_registeries", "HNBAP_HNBDe_RegisterIEs_t");
    ("tests/test-hnbap.c", 98%N, "hnbap_decode_hnbregisterrequesties", "HNBAP_HNBRegisterRequestIEs_t");
    ("tests/test-hnbap.c", 118%N, "hnbap_free_hnbregisterrequesties", "HNBAP_HNBRegisterRequestIEs_t");
    ("tests/test-hnbap.c", 130%N, "hnbap_decode_ueregisterrequesties", "HNBAP_UERegisterRequestIEs_t");
    ("tests/test-hnbap.c", 138%N, "hnbap_free_ueregisterrequesties", "HNBAP_UERegisterRequestIEs_t");
    ("tests/test-hnbap.c", 153%N, "hnbap_decode_ueregisteraccepties", "HNBAP_UERegisterAcceptIEs_t");
    ("tests/test-hnbap.c", 161%N, "hnbap_free_ueregisteraccepties", "HNBAP_UERegisterAcceptIEs_t") ].
(* src/*.c, tests/*.c: with a member of the union: file, line, function, member *)
Definition union_calls : list (string * N * string * string) :=
  [ ("src/ranap_common_cn.c", 46%N, "ranap_decode_initialue_messageies", "initialUE_MessageIEs");
    ("src/ranap_common_cn.c", 49%N, "ranap_decode_directtransferies", "directTransferIEs");
    ("src/ranap_common_cn.c", 53%N, "ranap_decode_rab_releaserequesties", "raB_ReleaseRequestIEs");
    ("src/ranap_common_cn.c", 57%N, "ranap_decode_iu_releaserequesties", "iu_ReleaseRequestIEs");
    ("src/ranap_common_cn.c", 60%N, "ranap_decode_errorindicationies", "errorIndicationIEs");
    ("src/ranap_common_cn.c", 63%N, "ranap_decode_rab_modifyrequesties", "raB_ModifyRequestIEs");
    ("src/ranap_common_cn.c", 69%N, "ranap_decode_securitymodecommandies", "securityModeCommandIEs");
    ("src/ranap_common_cn.c", 73%N, "ranap_decode_iu_releasecommandies", "iu_ReleaseCommandIEs");
    ("src/ranap_common_cn.c", 76%N, "ranap_decode_relocationrequiredies", "relocationRequiredIEs");
    ("src/ranap_common_cn.c", 81%N, "ranap_decode_relocationcancelies", "relocationCancelIEs");
    ("src/ranap_common_cn.c", 84%N, "ranap_decode_forwardsrns_contexties", "forwardSRNS_ContextIEs");
    ("src/ranap_common_cn.c", 87%N, "ranap_decode_locationreporties", "locationReportIEs");
    ("src/ranap_common_cn.c", 104%N, "ranap_free_initialue_messageies", "initialUE_MessageIEs");
    ("src/ranap_common_cn.c", 107%N, "ranap_free_directtransferies", "directTransferIEs");
    ("src/ranap_common_cn.c", 111%N, "ranap_free_rab_releaserequesties", "raB_ReleaseRequestIEs");
    ("src/ranap_common_cn.c", 115%N, "ranap_free_iu_releaserequesties", "iu_ReleaseRequestIEs");
    ("src/ranap_common_cn.c", 118%N, "ranap_free_errorindicationies", "errorIndicationIEs");
    ("src/ranap_common_cn.c", 121%N, "ranap_free_rab_modifyrequesties", "raB_ModifyRequestIEs");
    ("src/ranap_common_cn.c", 127%N, "ranap_free_securitymodecommandies", "securityModeCommandIEs");
    ("src/ranap_common_cn.c", 131%N, "ranap_free_iu_releasecommandies", "iu_ReleaseCommandIEs");
    ("src/ranap_common_cn.c", 134%N, "ranap_free_relocationrequiredies", "relocationRequiredIEs");
    ("src/ranap_common_cn.c", 139%N, "ranap_free_relocationcancelies", "relocationCancelIEs");
    ("src/ranap_common_cn.c", 142%N, "ranap_free_forwardsrns_contexties", "forwardSRNS_ContextIEs");
    ("src/ranap_common_cn.c", 145%N, "ranap_free_locationreporties", "locationReportIEs");
    ("src/ranap_common_cn.c", 168%N, "ranap_decode_rab_assignmentresponseies", "raB_AssignmentResponseIEs");
    ("src/ranap_common_cn.c", 172%N, "ranap_decode_iu_releasecompleteies", "iu_ReleaseCompleteIEs");
    ("src/ranap_common_cn.c", 175%N, "ranap_decode_relocationrequestacknowledgeies", "relocationRequestAcknowledgeIEs");
    ("src/ranap_common_cn.c", 178%N, "ranap_decode_srns_contextresponseies", "srnS_ContextResponseIEs");
    ("src/ranap_common_cn.c", 182%N, "ranap_decode_securitymodecompleteies", "securityModeCompleteIEs");
    ("src/ranap_common_cn.c", 185%N, "ranap_decode_datavolumereporties", "dataVolumeReportIEs");
    ("src/ranap_common_cn.c", 188%N, "ranap_decode_locationrelateddataresponseies", "locationRelatedDataResponseIEs");
    ("src/ranap_common_cn.c", 206%N, "ranap_free_rab_assignmentresponseies", "raB_AssignmentResponseIEs");
    ("src/ranap_common_cn.c", 210%N, "ranap_free_iu_releasecompleteies", "iu_ReleaseCompleteIEs");
    ("src/ranap_common_cn.c", 213%N, "ranap_free_relocationrequestacknowledgeies", "relocationRequestAcknowledgeIEs");
    ("src/ranap_common_cn.c", 216%N, "ranap_free_srns_contextresponseies", "srnS_ContextResponseIEs");
    ("src/ranap_common_cn.c", 220%N, "ranap_free_securitymodecompleteies", "securityModeCompleteIEs");
    ("src/ranap_common_cn.c", 223%N, "ranap_free_datavolumereporties", "dataVolumeReportIEs");
    ("src/ranap_common_cn.c", 226%N, "ranap_free_locationrelateddataresponseies", "locationRelatedDataResponseIEs");
    ("src/ranap_common_cn.c", 249%N, "ranap_decode_rab_assignmentresponseies", "raB_AssignmentResponseIEs");
    ("src/ranap_common_cn.c", 267%N, "ranap_free_rab_assignmentresponseies", "raB_AssignmentResponseIEs");
    ("src/ranap_common_cn.c", 288%N, "ranap_decode_relocationfailureies", "relocationFailureIEs");
    ("src/ranap_common_cn.c", 291%N, "ranap_decode_securitymoderejecties", "securityModeRejectIEs");
    ("src/ranap_common_cn.c", 294%N, "ranap_decode_locationrelateddatafailureies", "locationRelatedDataFailureIEs");
    ("src/ranap_common_cn.c", 311%N, "ranap_free_relocationfailureies", "relocationFailureIEs");
    ("src/ranap_common_cn.c", 314%N, "ranap_free_securitymoderejecties", "securityModeRejectIEs");
    ("src/ranap_common_cn.c", 317%N, "ranap_free_locationrelateddatafailureies", "locationRelatedDataFailureIEs");
    ("src/ranap_common_cn.c", 442%N, "ranap_decode_reseties", "resetIEs");
    ("src/ranap_common_cn.c", 445%N, "ranap_decode_overloadies", "overloadIEs");
    ("src/ranap_common_cn.c", 448%N, "ranap_decode_errorindicationies", "errorIndicationIEs");
    ("src/ranap_common_cn.c", 451%N, "ranap_decode_resetresourceies", "resetResourceIEs");
    ("src/ranap_common_cn.c", 454%N, "ranap_decode_informationtransferindicationies", "informationTransferIndicationIEs");
    ("src/ranap_common_cn.c", 457%N, "ranap_decode_directinformationtransferies", "directInformationTransferIEs");
    ("src/ranap_common_cn.c", 460%N, "ranap_decode_uplinkinformationexchangerequesties", "uplinkInformationExchangeRequestIEs");
    ("src/ranap_common_cn.c", 464%N, "ranap_decode_pagingies", "pagingIEs");
    ("src/ranap_common_cn.c", 482%N, "ranap_free_reseties", "resetIEs");
    ("src/ranap_common_cn.c", 485%N, "ranap_free_overloadies", "overloadIEs");
    ("src/ranap_common_cn.c", 488%N, "ranap_free_errorindicationies", "errorIndicationIEs");
    ("src/ranap_common_cn.c", 491%N, "ranap_free_resetresourceies", "resetResourceIEs");
    ("src/ranap_common_cn.c", 494%N, "ranap_free_informationtransferindicationies", "informationTransferIndicationIEs");
    ("src/ranap_common_cn.c", 497%N, "ranap_free_directinformationtransferies", "directInformationTransferIEs");
    ("src/ranap_common_cn.c", 500%N, "ranap_free_uplinkinformationexchangerequesties", "uplinkInformationExchangeRequestIEs");
    ("src/ranap_common_cn.c", 504%N, "ranap_free_pagingies", "pagingIEs");
    ("src/ranap_common_cn.c", 526%N, "ranap_decode_resetacknowledgeies", "resetAcknowledgeIEs");
    ("src/ranap_common_cn.c", 529%N, "ranap_decode_resetresourceacknowledgeies", "resetResourceAcknowledgeIEs");
    ("src/ranap_common_cn.c", 532%N, "ranap_decode_resetresourceacknowledgeies", "resetResourceAcknowledgeIEs");
    ("src/ranap_common_cn.c", 535%N, "ranap_decode_informationtransferconfirmationies", "informationTransferConfirmationIEs");
    ("src/ranap_common_cn.c", 538%N, "ranap_decode_uplinkinformationexchangeresponseies", "uplinkInformationExchangeResponseIEs");
    ("src/ranap_common_cn.c", 554%N, "ranap_free_resetacknowledgeies", "resetAcknowledgeIEs");
    ("src/ranap_common_cn.c", 557%N, "ranap_free_resetresourceacknowledgeies", "resetResourceAcknowledgeIEs");
    ("src/ranap_common_cn.c", 560%N, "ranap_free_resetresourceacknowledgeies", "resetResourceAcknowledgeIEs");
    ("src/ranap_common_cn.c", 563%N, "ranap_free_informationtransferconfirmationies", "informationTransferConfirmationIEs");
    ("src/ranap_common_cn.c", 566%N, "ranap_free_uplinkinformationexchangeresponseies", "uplinkInformationExchangeResponseIEs");
    ("src/ranap_common_ran.c", 47%N, "ranap_decode_rab_assignmentrequesties", "raB_AssignmentRequestIEs");
    ("src/ranap_common_ran.c", 50%N, "ranap_decode_directtransferies", "directTransferIEs");
    ("src/ranap_common_ran.c", 53%N, "ranap_decode_errorindicationies", "errorIndicationIEs");
    ("src/ranap_common_ran.c", 56%N, "ranap_decode_iu_releasecommandies", "iu_ReleaseCommandIEs");
    ("src/ranap_common_ran.c", 59%N, "ranap_decode_relocationrequesties", "relocationRequestIEs");
    ("src/ranap_common_ran.c", 62%N, "ranap_decode_srns_contextrequesties", "srnS_ContextRequestIEs");
    ("src/ranap_common_ran.c", 65%N, "ranap_decode_srns_dataforwardcommandies", "srnS_DataForwardCommandIEs");
    ("src/ranap_common_ran.c", 68%N, "ranap_decode_forwardsrns_contexties", "forwardSRNS_ContextIEs");
    ("src/ranap_common_ran.c", 71%N, "ranap_decode_commonid_ies", "commonID_IEs");
    ("src/ranap_common_ran.c", 74%N, "ranap_decode_cn_invoketraceies", "cN_InvokeTraceIEs");
    ("src/ranap_common_ran.c", 77%N, "ranap_decode_securitymodecommandies", "securityModeCommandIEs");
    ("src/ranap_common_ran.c", 80%N, "ranap_decode_locationreportingcontrolies", "locationReportingControlIEs");
    ("src/ranap_common_ran.c", 83%N, "ranap_decode_datavolumereportrequesties", "dataVolumeReportRequestIEs");
    ("src/ranap_common_ran.c", 86%N, "ranap_decode_cn_deactivatetraceies", "cN_DeactivateTraceIEs");
    ("src/ranap_common_ran.c", 89%N, "ranap_decode_locationrelateddatarequesties", "locationRelatedDataRequestIEs");
    ("src/ranap_common_ran.c", 106%N, "ranap_free_rab_assignmentrequesties", "raB_AssignmentRequestIEs");
    ("src/ranap_common_ran.c", 109%N, "ranap_free_directtransferies", "directTransferIEs");
    ("src/ranap_common_ran.c", 112%N, "ranap_free_errorindicationies", "errorIndicationIEs");
    ("src/ranap_common_ran.c", 115%N, "ranap_free_iu_releasecommandies", "iu_ReleaseCommandIEs");
    ("src/ranap_common_ran.c", 118%N, "ranap_free_relocationrequesties", "relocationRequestIEs");
    ("src/ranap_common_ran.c", 121%N, "ranap_free_srns_contextrequesties", "srnS_ContextRequestIEs");
    ("src/ranap_common_ran.c", 124%N, "ranap_free_srns_dataforwardcommandies", "srnS_DataForwardCommandIEs");
    ("src/ranap_common_ran.c", 127%N, "ranap_free_forwardsrns_contexties", "forwardSRNS_ContextIEs");
    ("src/ranap_common_ran.c", 130%N, "ranap_free_commonid_ies", "commonID_IEs");
    ("src/ranap_common_ran.c", 133%N, "ranap_free_cn_invoketraceies", "cN_InvokeTraceIEs");
    ("src/ranap_common_ran.c", 136%N, "ranap_free_securitymodecommandies", "securityModeCommandIEs");
    ("src/ranap_common_ran.c", 139%N, "ranap_free_locationreportingcontrolies", "locationReportingControlIEs");
    ("src/ranap_common_ran.c", 142%N, "ranap_free_datavolumereportrequesties", "dataVolumeReportRequestIEs");
    ("src/ranap_common_ran.c", 145%N, "ranap_free_cn_deactivatetraceies", "cN_DeactivateTraceIEs");
    ("src/ranap_common_ran.c", 148%N, "ranap_free_locationrelateddatarequesties", "locationRelatedDataRequestIEs");
    ("src/ranap_common_ran.c", 169%N, "ranap_decode_relocationcommandies", "relocationCommandIEs");
    ("src/ranap_common_ran.c", 186%N, "ranap_free_relocationcommandies", "relocationCommandIEs");
    ("src/ranap_common_ran.c", 207%N, "ranap_decode_relocationpreparationfailureies", "relocationPreparationFailureIEs");
    ("src/ranap_common_ran.c", 225%N, "ranap_free_relocationpreparationfailureies", "relocationPreparationFailureIEs") ].
(* the switch statements: the function they are in, and of each case the procedure, the function called
   and the member of the union *)
(* src/ranap_common_cn.c, src/ranap_common_ran.c *)
Definition switches : list (string * list (string * string * string)) :=
  [ (* src/ranap_common_cn.c:34-98 *) ("cn_ranap_rx_initiating_msg_co",
      [ ("RANAP_ProcedureCode_id_InitialUE_Message", "ranap_decode_initialue_messageies", "initialUE_MessageIEs");
        ("RANAP_ProcedureCode_id_DirectTransfer", "ranap_decode_directtransferies", "directTransferIEs");
        ("RANAP_ProcedureCode_id_RAB_ReleaseRequest", "ranap_decode_rab_releaserequesties", "raB_ReleaseRequestIEs");
        ("RANAP_ProcedureCode_id_Iu_ReleaseRequest", "ranap_decode_iu_releaserequesties", "iu_ReleaseRequestIEs");
        ("RANAP_ProcedureCode_id_ErrorIndication", "ranap_decode_errorindicationies", "errorIndicationIEs");
        ("RANAP_ProcedureCode_id_RAB_ModifyRequest", "ranap_decode_rab_modifyrequesties", "raB_ModifyRequestIEs");
        ("RANAP_ProcedureCode_id_SecurityModeControl", "ranap_decode_securitymodecommandies", "securityModeCommandIEs");
        ("RANAP_ProcedureCode_id_Iu_Release", "ranap_decode_iu_releasecommandies", "iu_ReleaseCommandIEs");
        ("RANAP_ProcedureCode_id_RelocationPreparation", "ranap_decode_relocationrequiredies", "relocationRequiredIEs");
        ("RANAP_ProcedureCode_id_RelocationCancel", "ranap_decode_relocationcancelies", "relocationCancelIEs");
        ("RANAP_ProcedureCode_id_ForwardSRNS_Context", "ranap_decode_forwardsrns_contexties", "forwardSRNS_ContextIEs");
        ("RANAP_ProcedureCode_id_LocationReport", "ranap_decode_locationreporties", "locationReportIEs") ]);
    (* src/ranap_common_cn.c:100-153 *) ("cn_ranap_free_initiating_msg_co",
      [ ("RANAP_ProcedureCode_id_InitialUE_Message", "ranap_free_initialue_messageies", "initialUE_MessageIEs");
        ("RANAP_ProcedureCode_id_DirectTransfer", "ranap_free_directtransferies", "directTransferIEs");
        ("RANAP_ProcedureCode_id_RAB_ReleaseRequest", "ranap_free_rab_releaserequesties", "raB_ReleaseRequestIEs");
        ("RANAP_ProcedureCode_id_Iu_ReleaseRequest", "ranap_free_iu_releaserequesties", "iu_ReleaseRequestIEs");
        ("RANAP_ProcedureCode_id_ErrorIndication", "ranap_free_errorindicationies", "errorIndicationIEs");
        ("RANAP_ProcedureCode_id_RAB_ModifyRequest", "ranap_free_rab_modifyrequesties", "raB_ModifyRequestIEs");
        ("RANAP_ProcedureCode_id_SecurityModeControl", "ranap_free_securitymodecommandies", "securityModeCommandIEs");
        ("RANAP_ProcedureCode_id_Iu_Release", "ranap_free_iu_releasecommandies", "iu_ReleaseCommandIEs");
        ("RANAP_ProcedureCode_id_RelocationPreparation", "ranap_free_relocationrequiredies", "relocationRequiredIEs");
        ("RANAP_ProcedureCode_id_RelocationCancel", "ranap_free_relocationcancelies", "relocationCancelIEs");
        ("RANAP_ProcedureCode_id_ForwardSRNS_Context", "ranap_free_forwardsrns_contexties", "forwardSRNS_ContextIEs");
        ("RANAP_ProcedureCode_id_LocationReport", "ranap_free_locationreporties", "locationReportIEs") ]);
    (* src/ranap_common_cn.c:155-199 *) ("cn_ranap_rx_successful_msg_co",
      [
        ("RANAP_ProcedureCode_id_RAB_Assignment", "ranap_decode_rab_assignmentresponseies", "raB_AssignmentResponseIEs");
        ("RANAP_ProcedureCode_id_Iu_Release", "ranap_decode_iu_releasecompleteies", "iu_ReleaseCompleteIEs");
        ("RANAP_ProcedureCode_id_RelocationResourceAllocation", "ranap_decode_relocationrequestacknowledgeies", "relocationRequestAcknowledgeIEs");
        ("RANAP_ProcedureCode_id_SRNS_ContextTransfer", "ranap_decode_srns_contextresponseies", "srnS_ContextResponseIEs");
        ("RANAP_ProcedureCode_id_SecurityModeControl", "ranap_decode_securitymodecompleteies", "securityModeCompleteIEs");
        ("RANAP_ProcedureCode_id_DataVolumeReport", "ranap_decode_datavolumereporties", "dataVolumeReportIEs");
        ("RANAP_ProcedureCode_id_LocationRelatedData", "ranap_decode_locationrelateddataresponseies", "locationRelatedDataResponseIEs") ]);
    (* src/ranap_common_cn.c:201-234 *) ("cn_ranap_free_successful_msg_co",
      [
        ("RANAP_ProcedureCode_id_RAB_Assignment", "ranap_free_rab_assignmentresponseies", "raB_AssignmentResponseIEs");
        ("RANAP_ProcedureCode_id_Iu_Release", "ranap_free_iu_releasecompleteies", "iu_ReleaseCompleteIEs");
        ("RANAP_ProcedureCode_id_RelocationResourceAllocation", "ranap_free_relocationrequestacknowledgeies", "relocationRequestAcknowledgeIEs");
        ("RANAP_ProcedureCode_id_SRNS_ContextTransfer", "ranap_free_srns_contextresponseies", "srnS_ContextResponseIEs");
        ("RANAP_ProcedureCode_id_SecurityModeControl", "ranap_free_securitymodecompleteies", "securityModeCompleteIEs");
        ("RANAP_ProcedureCode_id_DataVolumeReport", "ranap_free_datavolumereporties", "dataVolumeReportIEs");
        ("RANAP_ProcedureCode_id_LocationRelatedData", "ranap_free_locationrelateddataresponseies", "locationRelatedDataResponseIEs") ]);
    (* src/ranap_common_cn.c:236-260 *) ("cn_ranap_rx_outcome_msg_co",
      [
        ("RANAP_ProcedureCode_id_RAB_Assignment", "ranap_decode_rab_assignmentresponseies", "raB_AssignmentResponseIEs") ]);
    (* src/ranap_common_cn.c:262-275 *) ("cn_ranap_free_outcome_msg_co",
      [
        ("RANAP_ProcedureCode_id_RAB_Assignment", "ranap_free_rab_assignmentresponseies", "raB_AssignmentResponseIEs") ]);
    (* src/ranap_common_cn.c:277-305 *) ("cn_ranap_rx_unsuccessful_msg_co",
      [
        ("RANAP_ProcedureCode_id_RelocationResourceAllocation", "ranap_decode_relocationfailureies", "relocationFailureIEs");
        ("RANAP_ProcedureCode_id_SecurityModeControl", "ranap_decode_securitymoderejecties", "securityModeRejectIEs");
        ("RANAP_ProcedureCode_id_LocationRelatedData", "ranap_decode_locationrelateddatafailureies", "locationRelatedDataFailureIEs") ]);
    (* src/ranap_common_cn.c:307-324 *) ("cn_ranap_free_unsuccessful_msg_co",
      [
        ("RANAP_ProcedureCode_id_RelocationResourceAllocation", "ranap_free_relocationfailureies", "relocationFailureIEs");
        ("RANAP_ProcedureCode_id_SecurityModeControl", "ranap_free_securitymoderejecties", "securityModeRejectIEs");
        ("RANAP_ProcedureCode_id_LocationRelatedData", "ranap_free_locationrelateddatafailureies", "locationRelatedDataFailureIEs") ]);
    (* src/ranap_common_cn.c:429-474 *) ("cn_ranap_rx_initiating_msg_cl",
      [ ("RANAP_ProcedureCode_id_Reset", "ranap_decode_reseties", "resetIEs");
        ("RANAP_ProcedureCode_id_OverloadControl", "ranap_decode_overloadies", "overloadIEs");
        ("RANAP_ProcedureCode_id_ErrorIndication", "ranap_decode_errorindicationies", "errorIndicationIEs");
        ("RANAP_ProcedureCode_id_ResetResource", "ranap_decode_resetresourceies", "resetResourceIEs");
        ("RANAP_ProcedureCode_id_InformationTransfer", "ranap_decode_informationtransferindicationies", "informationTransferIndicationIEs");
        ("RANAP_ProcedureCode_id_DirectInformationTransfer", "ranap_decode_directinformationtransferies", "directInformationTransferIEs");
        ("RANAP_ProcedureCode_id_UplinkInformationExchange", "ranap_decode_uplinkinformationexchangerequesties", "uplinkInformationExchangeRequestIEs");
        ("RANAP_ProcedureCode_id_Paging", "ranap_decode_pagingies", "pagingIEs") ]);
    (* src/ranap_common_cn.c:476-512 *) ("cn_ranap_free_initiating_msg_cl",
      [ ("RANAP_ProcedureCode_id_Reset", "ranap_free_reseties", "resetIEs");
        ("RANAP_ProcedureCode_id_OverloadControl", "ranap_free_overloadies", "overloadIEs");
        ("RANAP_ProcedureCode_id_ErrorIndication", "ranap_free_errorindicationies", "errorIndicationIEs");
        ("RANAP_ProcedureCode_id_ResetResource", "ranap_free_resetresourceies", "resetResourceIEs");
        ("RANAP_ProcedureCode_id_InformationTransfer", "ranap_free_informationtransferindicationies", "informationTransferIndicationIEs");
        ("RANAP_ProcedureCode_id_DirectInformationTransfer", "ranap_free_directinformationtransferies", "directInformationTransferIEs");
        ("RANAP_ProcedureCode_id_UplinkInformationExchange", "ranap_free_uplinkinformationexchangerequesties", "uplinkInformationExchangeRequestIEs");
        ("RANAP_ProcedureCode_id_Paging", "ranap_free_pagingies", "pagingIEs") ]);
    (* src/ranap_common_cn.c:514-548 *) ("cn_ranap_rx_successful_msg_cl",
      [ ("RANAP_ProcedureCode_id_Reset", "ranap_decode_resetacknowledgeies", "resetAcknowledgeIEs");
        ("RANAP_ProcedureCode_id_ResetResource", "ranap_decode_resetresourceacknowledgeies", "resetResourceAcknowledgeIEs");
        ("RANAP_ProcedureCode_id_InformationTransfer", "ranap_decode_resetresourceacknowledgeies", "resetResourceAcknowledgeIEs");
        ("RANAP_ProcedureCode_id_DirectInformationTransfer", "ranap_decode_informationtransferconfirmationies", "informationTransferConfirmationIEs");
        ("RANAP_ProcedureCode_id_UplinkInformationExchange", "ranap_decode_uplinkinformationexchangeresponseies", "uplinkInformationExchangeResponseIEs") ]);
    (* src/ranap_common_cn.c:550-574 *) ("cn_ranap_free_successful_msg_cl",
      [ ("RANAP_ProcedureCode_id_Reset", "ranap_free_resetacknowledgeies", "resetAcknowledgeIEs");
        ("RANAP_ProcedureCode_id_ResetResource", "ranap_free_resetresourceacknowledgeies", "resetResourceAcknowledgeIEs");
        ("RANAP_ProcedureCode_id_InformationTransfer", "ranap_free_resetresourceacknowledgeies", "resetResourceAcknowledgeIEs");
        ("RANAP_ProcedureCode_id_DirectInformationTransfer", "ranap_free_informationtransferconfirmationies", "informationTransferConfirmationIEs");
        ("RANAP_ProcedureCode_id_UplinkInformationExchange", "ranap_free_uplinkinformationexchangeresponseies", "uplinkInformationExchangeResponseIEs") ]);
    (* src/ranap_common_ran.c:36-100 *) ("ran_ranap_rx_initiating_msg_co",
      [
        ("RANAP_ProcedureCode_id_RAB_Assignment", "ranap_decode_rab_assignmentrequesties", "raB_AssignmentRequestIEs");
        ("RANAP_ProcedureCode_id_DirectTransfer", "ranap_decode_directtransferies", "directTransferIEs");
        ("RANAP_ProcedureCode_id_ErrorIndication", "ranap_decode_errorindicationies", "errorIndicationIEs");
        ("RANAP_ProcedureCode_id_Iu_Release", "ranap_decode_iu_releasecommandies", "iu_ReleaseCommandIEs");
        ("RANAP_ProcedureCode_id_RelocationResourceAllocation", "ranap_decode_relocationrequesties", "relocationRequestIEs");
        ("RANAP_ProcedureCode_id_SRNS_ContextTransfer", "ranap_decode_srns_contextrequesties", "srnS_ContextRequestIEs");
        ("RANAP_ProcedureCode_id_SRNS_DataForward", "ranap_decode_srns_dataforwardcommandies", "srnS_DataForwardCommandIEs");
        ("RANAP_ProcedureCode_id_ForwardSRNS_Context", "ranap_decode_forwardsrns_contexties", "forwardSRNS_ContextIEs");
        ("RANAP_ProcedureCode_id_CommonID", "ranap_decode_commonid_ies", "commonID_IEs");
        ("RANAP_ProcedureCode_id_CN_InvokeTrace", "ranap_decode_cn_invoketraceies", "cN_InvokeTraceIEs");
        ("RANAP_ProcedureCode_id_SecurityModeControl", "ranap_decode_securitymodecommandies", "securityModeCommandIEs");
        ("RANAP_ProcedureCode_id_LocationReportingControl", "ranap_decode_locationreportingcontrolies", "locationReportingControlIEs");
        ("RANAP_ProcedureCode_id_DataVolumeReport", "ranap_decode_datavolumereportrequesties", "dataVolumeReportRequestIEs");
        ("RANAP_ProcedureCode_id_CN_DeactivateTrace", "ranap_decode_cn_deactivatetraceies", "cN_DeactivateTraceIEs");
        ("RANAP_ProcedureCode_id_LocationRelatedData", "ranap_decode_locationrelateddatarequesties", "locationRelatedDataRequestIEs") ]);
    (* src/ranap_common_ran.c:102-156 *) ("ran_ranap_free_initiating_msg_co",
      [
        ("RANAP_ProcedureCode_id_RAB_Assignment", "ranap_free_rab_assignmentrequesties", "raB_AssignmentRequestIEs");
        ("RANAP_ProcedureCode_id_DirectTransfer", "ranap_free_directtransferies", "directTransferIEs");
        ("RANAP_ProcedureCode_id_ErrorIndication", "ranap_free_errorindicationies", "errorIndicationIEs");
        ("RANAP_ProcedureCode_id_Iu_Release", "ranap_free_iu_releasecommandies", "iu_ReleaseCommandIEs");
        ("RANAP_ProcedureCode_id_RelocationResourceAllocation", "ranap_free_relocationrequesties", "relocationRequestIEs");
        ("RANAP_ProcedureCode_id_SRNS_ContextTransfer", "ranap_free_srns_contextrequesties", "srnS_ContextRequestIEs");
        ("RANAP_ProcedureCode_id_SRNS_DataForward", "ranap_free_srns_dataforwardcommandies", "srnS_DataForwardCommandIEs");
        ("RANAP_ProcedureCode_id_ForwardSRNS_Context", "ranap_free_forwardsrns_contexties", "forwardSRNS_ContextIEs");
        ("RANAP_ProcedureCode_id_CommonID", "ranap_free_commonid_ies", "commonID_IEs");
        ("RANAP_ProcedureCode_id_CN_InvokeTrace", "ranap_free_cn_invoketraceies", "cN_InvokeTraceIEs");
        ("RANAP_ProcedureCode_id_SecurityModeControl", "ranap_free_securitymodecommandies", "securityModeCommandIEs");
        ("RANAP_ProcedureCode_id_LocationReportingControl", "ranap_free_locationreportingcontrolies", "locationReportingControlIEs");
        ("RANAP_ProcedureCode_id_DataVolumeReport", "ranap_free_datavolumereportrequesties", "dataVolumeReportRequestIEs");
        ("RANAP_ProcedureCode_id_CN_DeactivateTrace", "ranap_free_cn_deactivatetraceies", "cN_DeactivateTraceIEs");
        ("RANAP_ProcedureCode_id_LocationRelatedData", "ranap_free_locationrelateddatarequesties", "locationRelatedDataRequestIEs") ]);
    (* src/ranap_common_ran.c:158-180 *) ("ran_ranap_rx_successful_msg_co",
      [
        ("RANAP_ProcedureCode_id_RelocationPreparation", "ranap_decode_relocationcommandies", "relocationCommandIEs") ]);
    (* src/ranap_common_ran.c:182-194 *) ("ran_ranap_free_successful_msg_co",
      [
        ("RANAP_ProcedureCode_id_RelocationPreparation", "ranap_free_relocationcommandies", "relocationCommandIEs") ]);
    (* src/ranap_common_ran.c:196-219 *) ("ran_ranap_rx_unsuccessful_msg_co",
      [
        ("RANAP_ProcedureCode_id_RelocationPreparation", "ranap_decode_relocationpreparationfailureies", "relocationPreparationFailureIEs") ]);
    (* src/ranap_common_ran.c:221-233 *) ("ran_ranap_free_unsuccessful_msg_co",
      [
        ("RANAP_ProcedureCode_id_RelocationPreparation", "ranap_free_relocationpreparationfailureies", "relocationPreparationFailureIEs") ]) ].
(* include/osmocom/ranap/RANAP_ProcedureCode.h *)
Definition ranap_procedures_c : list (string * N) :=
  [ ("RANAP_ProcedureCode_id_RAB_Assignment", 0%N); ("RANAP_ProcedureCode_id_Iu_Release", 1%N);
    ("RANAP_ProcedureCode_id_RelocationPreparation", 2%N);
    ("RANAP_ProcedureCode_id_RelocationResourceAllocation", 3%N);
    ("RANAP_ProcedureCode_id_RelocationCancel", 4%N); ("RANAP_ProcedureCode_id_SRNS_ContextTransfer", 5%N);
    ("RANAP_ProcedureCode_id_SecurityModeControl", 6%N); ("RANAP_ProcedureCode_id_DataVolumeReport", 7%N);
    ("RANAP_ProcedureCode_id_Reset", 9%N); ("RANAP_ProcedureCode_id_RAB_ReleaseRequest", 10%N);
    ("RANAP_ProcedureCode_id_Iu_ReleaseRequest", 11%N); ("RANAP_ProcedureCode_id_RelocationDetect", 12%N);
    ("RANAP_ProcedureCode_id_RelocationComplete", 13%N); ("RANAP_ProcedureCode_id_Paging", 14%N);
    ("RANAP_ProcedureCode_id_CommonID", 15%N); ("RANAP_ProcedureCode_id_CN_InvokeTrace", 16%N);
    ("RANAP_ProcedureCode_id_LocationReportingControl", 17%N); ("RANAP_ProcedureCode_id_LocationReport", 18%N);
    ("RANAP_ProcedureCode_id_InitialUE_Message", 19%N); ("RANAP_ProcedureCode_id_DirectTransfer", 20%N);
    ("RANAP_ProcedureCode_id_OverloadControl", 21%N); ("RANAP_ProcedureCode_id_ErrorIndication", 22%N);
    ("RANAP_ProcedureCode_id_SRNS_DataForward", 23%N); ("RANAP_ProcedureCode_id_ForwardSRNS_Context", 24%N);
    ("RANAP_ProcedureCode_id_privateMessage", 25%N); ("RANAP_ProcedureCode_id_CN_DeactivateTrace", 26%N);
    ("RANAP_ProcedureCode_id_ResetResource", 27%N); ("RANAP_ProcedureCode_id_RANAP_Relocation", 28%N);
    ("RANAP_ProcedureCode_id_RAB_ModifyRequest", 29%N); ("RANAP_ProcedureCode_id_LocationRelatedData", 30%N);
    ("RANAP_ProcedureCode_id_InformationTransfer", 31%N); ("RANAP_ProcedureCode_id_UESpecificInformation", 32%N);
    ("RANAP_ProcedureCode_id_UplinkInformationExchange", 33%N);
    ("RANAP_ProcedureCode_id_DirectInformationTransfer", 34%N); ("RANAP_ProcedureCode_id_MBMSSessionStart", 35%N);
    ("RANAP_ProcedureCode_id_MBMSSessionUpdate", 36%N); ("RANAP_ProcedureCode_id_MBMSSessionStop", 37%N);
    ("RANAP_ProcedureCode_id_MBMSUELinking", 38%N); ("RANAP_ProcedureCode_id_MBMSRegistration", 39%N);
    ("RANAP_ProcedureCode_id_MBMSCNDe_Registration_Procedure", 40%N);
    ("RANAP_ProcedureCode_id_MBMSRABEstablishmentIndication", 41%N);
    ("RANAP_ProcedureCode_id_MBMSRABRelease", 42%N); ("RANAP_ProcedureCode_id_enhancedRelocationComplete", 43%N);
    ("RANAP_ProcedureCode_id_enhancedRelocationCompleteConfirm", 44%N);
    ("RANAP_ProcedureCode_id_RANAPenhancedRelocation", 45%N); ("RANAP_ProcedureCode_id_SRVCCPreparation", 46%N);
    ("RANAP_ProcedureCode_id_UeRadioCapabilityMatch", 47%N) ].
