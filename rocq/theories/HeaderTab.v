(* Generated by a script from include/osmocom/{ranap,rua,hnbap,sabp}/*.h as asn1c wrote them: the
   enumerations (an enumerator and the number written for it, if any), the typedefs, the
   structures and the unions. *)
From Verif Require Import Base CDecl.
From Coq Require Import String List.
Import ListNotations.
Local Open Scope string_scope.
Local Open Scope list_scope.
Local Open Scope Z_scope.

Definition ranap_enums : list (string * list (string * option Z)) := [
  (* include/osmocom/ranap/RANAP_AccuracyFulfilmentIndicator.h:22-28 *)
  ("RANAP_AccuracyFulfilmentIndicator", [("RANAP_AccuracyFulfilmentIndicator_requested_Accuracy_Fulfilled", Some 0); ("RANAP_AccuracyFulfilmentIndicator_requested_Accuracy_Not_Fulfilled", Some 1)]);
  (* include/osmocom/ranap/RANAP_Alt-RAB-Parameter-GuaranteedBitrateType.h:22-29 *)
  ("RANAP_Alt_RAB_Parameter_GuaranteedBitrateType", [("RANAP_Alt_RAB_Parameter_GuaranteedBitrateType_unspecified", Some 0); ("RANAP_Alt_RAB_Parameter_GuaranteedBitrateType_value_range", Some 1); ("RANAP_Alt_RAB_Parameter_GuaranteedBitrateType_discrete_values", Some 2)]);
  (* include/osmocom/ranap/RANAP_Alt-RAB-Parameter-MaxBitrateType.h:22-29 *)
  ("RANAP_Alt_RAB_Parameter_MaxBitrateType", [("RANAP_Alt_RAB_Parameter_MaxBitrateType_unspecified", Some 0); ("RANAP_Alt_RAB_Parameter_MaxBitrateType_value_range", Some 1); ("RANAP_Alt_RAB_Parameter_MaxBitrateType_discrete_values", Some 2)]);
  (* include/osmocom/ranap/RANAP_AlternativeRABConfigurationRequest.h:22-27 *)
  ("RANAP_AlternativeRABConfigurationRequest", [("RANAP_AlternativeRABConfigurationRequest_alternative_RAB_configuration_Requested", Some 0)]);
  (* include/osmocom/ranap/RANAP_AreaIdentity.h:24-30 *)
  ("RANAP_AreaIdentity_PR", [("RANAP_AreaIdentity_PR_NOTHING", None); ("RANAP_AreaIdentity_PR_sAI", None); ("RANAP_AreaIdentity_PR_geographicalArea", None)]);
  (* include/osmocom/ranap/RANAP_CN-DomainIndicator.h:22-25 *)
  ("RANAP_CN_DomainIndicator", [("RANAP_CN_DomainIndicator_cs_domain", Some 0); ("RANAP_CN_DomainIndicator_ps_domain", Some 1)]);
  (* include/osmocom/ranap/RANAP_CSFB-Information.h:22-28 *)
  ("RANAP_CSFB_Information", [("RANAP_CSFB_Information_csfb", Some 0); ("RANAP_CSFB_Information_csfb_high_priority", Some 1)]);
  (* include/osmocom/ranap/RANAP_CSG-Membership-Status.h:22-28 *)
  ("RANAP_CSG_Membership_Status", [("RANAP_CSG_Membership_Status_member", Some 0); ("RANAP_CSG_Membership_Status_non_member", Some 1)]);
  (* include/osmocom/ranap/RANAP_Cause.h:29-39 *)
  ("RANAP_Cause_PR", [("RANAP_Cause_PR_NOTHING", None); ("RANAP_Cause_PR_radioNetwork", None); ("RANAP_Cause_PR_transmissionNetwork", None); ("RANAP_Cause_PR_nAS", None); ("RANAP_Cause_PR_protocol", None); ("RANAP_Cause_PR_misc", None); ("RANAP_Cause_PR_non_Standard", None); ("RANAP_Cause_PR_radioNetworkExtension", None)]);
  (* include/osmocom/ranap/RANAP_CauseMisc.h:22-27 *)
  ("RANAP_CauseMisc", [("RANAP_CauseMisc_om_intervention", Some 113); ("RANAP_CauseMisc_no_resource_available", Some 114); ("RANAP_CauseMisc_unspecified_failure", Some 115); ("RANAP_CauseMisc_network_optimisation", Some 116)]);
  (* include/osmocom/ranap/RANAP_CauseNAS.h:22-27 *)
  ("RANAP_CauseNAS", [("RANAP_CauseNAS_user_restriction_start_indication", Some 81); ("RANAP_CauseNAS_user_restriction_end_indication", Some 82); ("RANAP_CauseNAS_normal_release", Some 83); ("RANAP_CauseNAS_csg_subscription_expiry", Some 84)]);
  (* include/osmocom/ranap/RANAP_CauseProtocol.h:22-29 *)
  ("RANAP_CauseProtocol", [("RANAP_CauseProtocol_transfer_syntax_error", Some 97); ("RANAP_CauseProtocol_semantic_error", Some 98); ("RANAP_CauseProtocol_message_not_compatible_with_receiver_state", Some 99); ("RANAP_CauseProtocol_abstract_syntax_error_reject", Some 100); ("RANAP_CauseProtocol_abstract_syntax_error_ignore_and_notify", Some 101); ("RANAP_CauseProtocol_abstract_syntax_error_falsely_constructed_message", Some 102)]);
  (* include/osmocom/ranap/RANAP_CauseRadioNetwork.h:22-87 *)
  ("RANAP_CauseRadioNetwork", [("RANAP_CauseRadioNetwork_rab_pre_empted", Some 1); ("RANAP_CauseRadioNetwork_trelocoverall_expiry", Some 2); ("RANAP_CauseRadioNetwork_trelocprep_expiry", Some 3); ("RANAP_CauseRadioNetwork_treloccomplete_expiry", Some 4); ("RANAP_CauseRadioNetwork_tqueing_expiry", Some 5); ("RANAP_CauseRadioNetwork_relocation_triggered", Some 6); ("RANAP_CauseRadioNetwork_trellocalloc_expiry", Some 7); ("RANAP_CauseRadioNetwork_unable_to_establish_during_relocation", Some 8); ("RANAP_CauseRadioNetwork_unknown_target_rnc", Some 9); ("RANAP_CauseRadioNetwork_relocation_cancelled", Some 10); ("RANAP_CauseRadioNetwork_successful_relocation", Some 11); ("RANAP_CauseRadioNetwork_requested_ciphering_and_or_integrity_protection_algorithms_not_supported", Some 12); ("RANAP_CauseRadioNetwork_conflict_with_already_existing_integrity_protection_and_or_ciphering_information", Some 13); ("RANAP_CauseRadioNetwork_failure_in_the_radio_interface_procedure", Some 14); ("RANAP_CauseRadioNetwork_release_due_to_utran_generated_reason", Some 15); ("RANAP_CauseRadioNetwork_user_inactivity", Some 16); ("RANAP_CauseRadioNetwork_time_critical_relocation", Some 17); ("RANAP_CauseRadioNetwork_requested_traffic_class_not_available", Some 18); ("RANAP_CauseRadioNetwork_invalid_rab_parameters_value", Some 19); ("RANAP_CauseRadioNetwork_requested_maximum_bit_rate_not_available", Some 20); ("RANAP_CauseRadioNetwork_requested_guaranteed_bit_rate_not_available", Some 21); ("RANAP_CauseRadioNetwork_requested_transfer_delay_not_achievable", Some 22); ("RANAP_CauseRadioNetwork_invalid_rab_parameters_combination", Some 23); ("RANAP_CauseRadioNetwork_condition_violation_for_sdu_parameters", Some 24); ("RANAP_CauseRadioNetwork_condition_violation_for_traffic_handling_priority", Some 25); ("RANAP_CauseRadioNetwork_condition_violation_for_guaranteed_bit_rate", Some 26); ("RANAP_CauseRadioNetwork_user_plane_versions_not_supported", Some 27); ("RANAP_CauseRadioNetwork_iu_up_failure", Some 28); ("RANAP_CauseRadioNetwork_relocation_failure_in_target_CN_RNC_or_target_system", Some 29); ("RANAP_CauseRadioNetwork_invalid_RAB_ID", Some 30); ("RANAP_CauseRadioNetwork_no_remaining_rab", Some 31); ("RANAP_CauseRadioNetwork_interaction_with_other_procedure", Some 32); ("RANAP_CauseRadioNetwork_requested_maximum_bit_rate_for_dl_not_available", Some 33); ("RANAP_CauseRadioNetwork_requested_maximum_bit_rate_for_ul_not_available", Some 34); ("RANAP_CauseRadioNetwork_requested_guaranteed_bit_rate_for_dl_not_available", Some 35); ("RANAP_CauseRadioNetwork_requested_guaranteed_bit_rate_for_ul_not_available", Some 36); ("RANAP_CauseRadioNetwork_repeated_integrity_checking_failure", Some 37); ("RANAP_CauseRadioNetwork_requested_request_type_not_supported", Some 38); ("RANAP_CauseRadioNetwork_request_superseded", Some 39); ("RANAP_CauseRadioNetwork_release_due_to_UE_generated_signalling_connection_release", Some 40); ("RANAP_CauseRadioNetwork_resource_optimisation_relocation", Some 41); ("RANAP_CauseRadioNetwork_requested_information_not_available", Some 42); ("RANAP_CauseRadioNetwork_relocation_desirable_for_radio_reasons", Some 43); ("RANAP_CauseRadioNetwork_relocation_not_supported_in_target_RNC_or_target_system", Some 44); ("RANAP_CauseRadioNetwork_directed_retry", Some 45); ("RANAP_CauseRadioNetwork_radio_connection_with_UE_Lost", Some 46); ("RANAP_CauseRadioNetwork_rNC_unable_to_establish_all_RFCs", Some 47); ("RANAP_CauseRadioNetwork_deciphering_keys_not_available", Some 48); ("RANAP_CauseRadioNetwork_dedicated_assistance_data_not_available", Some 49); ("RANAP_CauseRadioNetwork_relocation_target_not_allowed", Some 50); ("RANAP_CauseRadioNetwork_location_reporting_congestion", Some 51); ("RANAP_CauseRadioNetwork_reduce_load_in_serving_cell", Some 52); ("RANAP_CauseRadioNetwork_no_radio_resources_available_in_target_cell", Some 53); ("RANAP_CauseRadioNetwork_gERAN_Iumode_failure", Some 54); ("RANAP_CauseRadioNetwork_access_restricted_due_to_shared_networks", Some 55); ("RANAP_CauseRadioNetwork_incoming_relocation_not_supported_due_to_PUESBINE_feature", Some 56); ("RANAP_CauseRadioNetwork_traffic_load_in_the_target_cell_higher_than_in_the_source_cell", Some 57); ("RANAP_CauseRadioNetwork_mBMS_no_multicast_service_for_this_UE", Some 58); ("RANAP_CauseRadioNetwork_mBMS_unknown_UE_ID", Some 59); ("RANAP_CauseRadioNetwork_successful_MBMS_session_start_no_data_bearer_necessary", Some 60); ("RANAP_CauseRadioNetwork_mBMS_superseded_due_to_NNSF", Some 61); ("RANAP_CauseRadioNetwork_mBMS_UE_linking_already_done", Some 62); ("RANAP_CauseRadioNetwork_mBMS_UE_de_linking_failure_no_existing_UE_linking", Some 63); ("RANAP_CauseRadioNetwork_tMGI_unknown", Some 64)]);
  (* include/osmocom/ranap/RANAP_CauseRadioNetworkExtension.h:22-36 *)
  ("RANAP_CauseRadioNetworkExtension", [("RANAP_CauseRadioNetworkExtension_iP_multicast_address_and_APN_not_valid", Some 257); ("RANAP_CauseRadioNetworkExtension_mBMS_de_registration_rejected_due_to_implicit_registration", Some 258); ("RANAP_CauseRadioNetworkExtension_mBMS_request_superseded", Some 259); ("RANAP_CauseRadioNetworkExtension_mBMS_de_registration_during_session_not_allowed", Some 260); ("RANAP_CauseRadioNetworkExtension_mBMS_no_data_bearer_necessary", Some 261); ("RANAP_CauseRadioNetworkExtension_periodicLocationInformationNotAvailable", Some 262); ("RANAP_CauseRadioNetworkExtension_gTP_Resources_Unavailable", Some 263); ("RANAP_CauseRadioNetworkExtension_tMGI_inUse_overlapping_MBMS_service_area", Some 264); ("RANAP_CauseRadioNetworkExtension_mBMS_no_cell_in_MBMS_service_area", Some 265); ("RANAP_CauseRadioNetworkExtension_no_Iu_CS_UP_relocation", Some 266); ("RANAP_CauseRadioNetworkExtension_successful_MBMS_Session_Start_IP_Multicast_Bearer_established", Some 267); ("RANAP_CauseRadioNetworkExtension_cS_fallback_triggered", Some 268); ("RANAP_CauseRadioNetworkExtension_invalid_CSG_Id", Some 269)]);
  (* include/osmocom/ranap/RANAP_CauseTransmissionNetwork.h:22-25 *)
  ("RANAP_CauseTransmissionNetwork", [("RANAP_CauseTransmissionNetwork_signalling_transport_resource_failure", Some 65); ("RANAP_CauseTransmissionNetwork_iu_transport_connection_failed_to_establish", Some 66)]);
  (* include/osmocom/ranap/RANAP_Cell-Access-Mode.h:22-27 *)
  ("RANAP_Cell_Access_Mode", [("RANAP_Cell_Access_Mode_hybrid", Some 0)]);
  (* include/osmocom/ranap/RANAP_CellType.h:22-30 *)
  ("RANAP_CellType", [("RANAP_CellType_macro", Some 0); ("RANAP_CellType_micro", Some 1); ("RANAP_CellType_pico", Some 2); ("RANAP_CellType_femto", Some 3)]);
  (* include/osmocom/ranap/RANAP_ClientType.h:22-34 *)
  ("RANAP_ClientType", [("RANAP_ClientType_emergency_Services", Some 0); ("RANAP_ClientType_value_Added_Services", Some 1); ("RANAP_ClientType_pLMN_Operator_Services", Some 2); ("RANAP_ClientType_lawful_Intercept_Services", Some 3); ("RANAP_ClientType_pLMN_Operator_Broadcast_Services", Some 4); ("RANAP_ClientType_pLMN_Operator_O_et_M", Some 5); ("RANAP_ClientType_pLMN_Operator_Anonymous_Statistics", Some 6); ("RANAP_ClientType_pLMN_Operator_Target_MS_Service_Support", Some 7)]);
  (* include/osmocom/ranap/RANAP_Criticality.h:22-26 *)
  ("RANAP_Criticality", [("RANAP_Criticality_reject", Some 0); ("RANAP_Criticality_ignore", Some 1); ("RANAP_Criticality_notify", Some 2)]);
  (* include/osmocom/ranap/RANAP_DataPDUType.h:22-28 *)
  ("RANAP_DataPDUType", [("RANAP_DataPDUType_pDUtype0", Some 0); ("RANAP_DataPDUType_pDUtype1", Some 1)]);
  (* include/osmocom/ranap/RANAP_DataVolumeReportingIndication.h:22-25 *)
  ("RANAP_DataVolumeReportingIndication", [("RANAP_DataVolumeReportingIndication_do_report", Some 0); ("RANAP_DataVolumeReportingIndication_do_not_report", Some 1)]);
  (* include/osmocom/ranap/RANAP_DeliveryOfErroneousSDU.h:22-26 *)
  ("RANAP_DeliveryOfErroneousSDU", [("RANAP_DeliveryOfErroneousSDU_yes", Some 0); ("RANAP_DeliveryOfErroneousSDU_no", Some 1); ("RANAP_DeliveryOfErroneousSDU_no_error_detection_consideration", Some 2)]);
  (* include/osmocom/ranap/RANAP_DeliveryOrder.h:22-25 *)
  ("RANAP_DeliveryOrder", [("RANAP_DeliveryOrder_delivery_order_requested", Some 0); ("RANAP_DeliveryOrder_delivery_order_not_requested", Some 1)]);
  (* include/osmocom/ranap/RANAP_DirectReportingIndicator.h:22-28 *)
  ("RANAP_DirectReportingIndicator", [("RANAP_DirectReportingIndicator_directSAI", Some 0); ("RANAP_DirectReportingIndicator_directGeo", Some 1)]);
  (* include/osmocom/ranap/RANAP_E-UTRAN-Service-Handover.h:22-27 *)
  ("RANAP_E_UTRAN_Service_Handover", [("RANAP_E_UTRAN_Service_Handover_handover_to_E_UTRAN_shall_not_be_performed", Some 0)]);
  (* include/osmocom/ranap/RANAP_ENB-ID.h:23-29 *)
  ("RANAP_ENB_ID_PR", [("RANAP_ENB_ID_PR_NOTHING", None); ("RANAP_ENB_ID_PR_macroENB_ID", None); ("RANAP_ENB_ID_PR_homeENB_ID", None)]);
  (* include/osmocom/ranap/RANAP_EncryptionAlgorithm.h:22-26 *)
  ("RANAP_EncryptionAlgorithm", [("RANAP_EncryptionAlgorithm_no_encryption", Some 0); ("RANAP_EncryptionAlgorithm_standard_UMTS_encryption_algorith_UEA1", Some 1); ("RANAP_EncryptionAlgorithm_standard_UMTS_encryption_algorithm_UEA2", Some 2)]);
  (* include/osmocom/ranap/RANAP_End-Of-CSFB.h:22-27 *)
  ("RANAP_End_Of_CSFB", [("RANAP_End_Of_CSFB_end_of_CSFB", Some 0)]);
  (* include/osmocom/ranap/RANAP_EquipmentsToBeTraced.h:26-34 *)
  ("RANAP_EquipmentsToBeTraced_PR", [("RANAP_EquipmentsToBeTraced_PR_NOTHING", None); ("RANAP_EquipmentsToBeTraced_PR_iMEIlist", None); ("RANAP_EquipmentsToBeTraced_PR_iMEISVlist", None); ("RANAP_EquipmentsToBeTraced_PR_iMEIgroup", None); ("RANAP_EquipmentsToBeTraced_PR_iMEISVgroup", None)]);
  (* include/osmocom/ranap/RANAP_Event.h:22-32 *)
  ("RANAP_Event", [("RANAP_Event_stop_change_of_service_area", Some 0); ("RANAP_Event_direct", Some 1); ("RANAP_Event_change_of_servicearea", Some 2); ("RANAP_Event_stop_direct", Some 3); ("RANAP_Event_periodic", Some 4); ("RANAP_Event_stop_periodic", Some 5)]);
  (* include/osmocom/ranap/RANAP_ForwardingIndication.h:22-27 *)
  ("RANAP_ForwardingIndication", [("RANAP_ForwardingIndication_forwarding_admitted", Some 0)]);
  (* include/osmocom/ranap/RANAP_FrequenceLayerConvergenceFlag.h:22-27 *)
  ("RANAP_FrequenceLayerConvergenceFlag", [("RANAP_FrequenceLayerConvergenceFlag_no_FLC_flag", Some 0)]);
  (* include/osmocom/ranap/RANAP_GA-AltitudeAndDirection.h:24-27 *)
  ("RANAP_GA_AltitudeAndDirection__directionOfAltitude", [("RANAP_GA_AltitudeAndDirection__directionOfAltitude_height", Some 0); ("RANAP_GA_AltitudeAndDirection__directionOfAltitude_depth", Some 1)]);
  (* include/osmocom/ranap/RANAP_GeographicalArea.h:29-39 *)
  ("RANAP_GeographicalArea_PR", [("RANAP_GeographicalArea_PR_NOTHING", None); ("RANAP_GeographicalArea_PR_point", None); ("RANAP_GeographicalArea_PR_pointWithUnCertainty", None); ("RANAP_GeographicalArea_PR_polygon", None); ("RANAP_GeographicalArea_PR_pointWithUncertaintyEllipse", None); ("RANAP_GeographicalArea_PR_pointWithAltitude", None); ("RANAP_GeographicalArea_PR_pointWithAltitudeAndUncertaintyEllipsoid", None); ("RANAP_GeographicalArea_PR_ellipsoidArc", None)]);
  (* include/osmocom/ranap/RANAP_GeographicalCoordinates.h:25-28 *)
  ("RANAP_GeographicalCoordinates__latitudeSign", [("RANAP_GeographicalCoordinates__latitudeSign_north", Some 0); ("RANAP_GeographicalCoordinates__latitudeSign_south", Some 1)]);
  (* include/osmocom/ranap/RANAP_HigherBitratesThan16MbpsFlag.h:22-28 *)
  ("RANAP_HigherBitratesThan16MbpsFlag", [("RANAP_HigherBitratesThan16MbpsFlag_allowed", Some 0); ("RANAP_HigherBitratesThan16MbpsFlag_not_allowed", Some 1)]);
  (* include/osmocom/ranap/RANAP_IncludeVelocity.h:22-24 *)
  ("RANAP_IncludeVelocity", [("RANAP_IncludeVelocity_requested", Some 0)]);
  (* include/osmocom/ranap/RANAP_InformationExchangeType.h:22-28 *)
  ("RANAP_InformationExchangeType", [("RANAP_InformationExchangeType_transfer", Some 0); ("RANAP_InformationExchangeType_request", Some 1)]);
  (* include/osmocom/ranap/RANAP_InformationRequestType.h:24-30 *)
  ("RANAP_InformationRequestType_PR", [("RANAP_InformationRequestType_PR_NOTHING", None); ("RANAP_InformationRequestType_PR_mBMSIPMulticastAddressandAPNRequest", None); ("RANAP_InformationRequestType_PR_permanentNAS_UE_ID", None)]);
  (* include/osmocom/ranap/RANAP_InformationRequested.h:24-30 *)
  ("RANAP_InformationRequested_PR", [("RANAP_InformationRequested_PR_NOTHING", None); ("RANAP_InformationRequested_PR_requestedMBMSIPMulticastAddressandAPNRequest", None); ("RANAP_InformationRequested_PR_requestedMulticastServiceList", None)]);
  (* include/osmocom/ranap/RANAP_InformationTransferType.h:23-28 *)
  ("RANAP_InformationTransferType_PR", [("RANAP_InformationTransferType_PR_NOTHING", None); ("RANAP_InformationTransferType_PR_rNCTraceInformation", None)]);
  (* include/osmocom/ranap/RANAP_IntegrityProtectionAlgorithm.h:22-26 *)
  ("RANAP_IntegrityProtectionAlgorithm", [("RANAP_IntegrityProtectionAlgorithm_standard_UMTS_integrity_algorithm_UIA1", Some 0); ("RANAP_IntegrityProtectionAlgorithm_standard_UMTS_integrity_algorithm_UIA2", Some 1); ("RANAP_IntegrityProtectionAlgorithm_no_value", Some 15)]);
  (* include/osmocom/ranap/RANAP_InterSystemInformationTransferType.h:23-28 *)
  ("RANAP_InterSystemInformationTransferType_PR", [("RANAP_InterSystemInformationTransferType_PR_NOTHING", None); ("RANAP_InterSystemInformationTransferType_PR_rIM_Transfer", None)]);
  (* include/osmocom/ranap/RANAP_InterfacesToTraceItem.h:24-33 *)
  ("RANAP_InterfacesToTraceItem__interface", [("RANAP_InterfacesToTraceItem__interface_iu_cs", Some 0); ("RANAP_InterfacesToTraceItem__interface_iu_ps", Some 1); ("RANAP_InterfacesToTraceItem__interface_iur", Some 2); ("RANAP_InterfacesToTraceItem__interface_iub", Some 3); ("RANAP_InterfacesToTraceItem__interface_uu", Some 4)]);
  (* include/osmocom/ranap/RANAP_IuTransportAssociation.h:24-30 *)
  ("RANAP_IuTransportAssociation_PR", [("RANAP_IuTransportAssociation_PR_NOTHING", None); ("RANAP_IuTransportAssociation_PR_gTP_TEI", None); ("RANAP_IuTransportAssociation_PR_bindingID", None)]);
  (* include/osmocom/ranap/RANAP_KeyStatus.h:22-28 *)
  ("RANAP_KeyStatus", [("RANAP_KeyStatus_old", Some 0); ("RANAP_KeyStatus_new", Some 1)]);
  (* include/osmocom/ranap/RANAP_Links-to-log.h:22-29 *)
  ("RANAP_Links_to_log", [("RANAP_Links_to_log_uplink", Some 0); ("RANAP_Links_to_log_downlink", Some 1); ("RANAP_Links_to_log_both_uplink_and_downlink", Some 2)]);
  (* include/osmocom/ranap/RANAP_LocationRelatedDataRequestTypeSpecificToGERANIuMode.h:22-29 *)
  ("RANAP_LocationRelatedDataRequestTypeSpecificToGERANIuMode", [("RANAP_LocationRelatedDataRequestTypeSpecificToGERANIuMode_decipheringKeysEOTD", Some 0); ("RANAP_LocationRelatedDataRequestTypeSpecificToGERANIuMode_dedicatedMobileAssistedEOTDAssistanceData", Some 1); ("RANAP_LocationRelatedDataRequestTypeSpecificToGERANIuMode_dedicatedMobileBasedEOTDAssistanceData", Some 2)]);
  (* include/osmocom/ranap/RANAP_LoggingDuration.h:22-32 *)
  ("RANAP_LoggingDuration", [("RANAP_LoggingDuration_min10", Some 0); ("RANAP_LoggingDuration_min20", Some 1); ("RANAP_LoggingDuration_min40", Some 2); ("RANAP_LoggingDuration_min60", Some 3); ("RANAP_LoggingDuration_min90", Some 4); ("RANAP_LoggingDuration_min120", Some 5)]);
  (* include/osmocom/ranap/RANAP_LoggingInterval.h:22-34 *)
  ("RANAP_LoggingInterval", [("RANAP_LoggingInterval_s1d28", Some 0); ("RANAP_LoggingInterval_s2d56", Some 1); ("RANAP_LoggingInterval_s5d12", Some 2); ("RANAP_LoggingInterval_s10d24", Some 3); ("RANAP_LoggingInterval_s20d48", Some 4); ("RANAP_LoggingInterval_s30d72", Some 5); ("RANAP_LoggingInterval_s40d96", Some 6); ("RANAP_LoggingInterval_s61d44", Some 7)]);
  (* include/osmocom/ranap/RANAP_M1Report.h:24-30 *)
  ("RANAP_M1Report_PR", [("RANAP_M1Report_PR_NOTHING", None); ("RANAP_M1Report_PR_periodic", None); ("RANAP_M1Report_PR_event1F", None)]);
  (* include/osmocom/ranap/RANAP_M2Report.h:24-30 *)
  ("RANAP_M2Report_PR", [("RANAP_M2Report_PR_NOTHING", None); ("RANAP_M2Report_PR_periodic", None); ("RANAP_M2Report_PR_event1I", None)]);
  (* include/osmocom/ranap/RANAP_M4-Period.h:22-34 *)
  ("RANAP_M4_Period", [("RANAP_M4_Period_ms100", Some 0); ("RANAP_M4_Period_ms250", Some 1); ("RANAP_M4_Period_ms500", Some 2); ("RANAP_M4_Period_ms1000", Some 3); ("RANAP_M4_Period_ms2000", Some 4); ("RANAP_M4_Period_ms3000", Some 5); ("RANAP_M4_Period_ms4000", Some 6); ("RANAP_M4_Period_ms6000", Some 7)]);
  (* include/osmocom/ranap/RANAP_M4Report.h:24-30 *)
  ("RANAP_M4Report_PR", [("RANAP_M4Report_PR_NOTHING", None); ("RANAP_M4Report_PR_all", None); ("RANAP_M4Report_PR_m4_collection_parameters", None)]);
  (* include/osmocom/ranap/RANAP_M5-Period.h:22-34 *)
  ("RANAP_M5_Period", [("RANAP_M5_Period_ms100", Some 0); ("RANAP_M5_Period_ms250", Some 1); ("RANAP_M5_Period_ms500", Some 2); ("RANAP_M5_Period_ms1000", Some 3); ("RANAP_M5_Period_ms2000", Some 4); ("RANAP_M5_Period_ms3000", Some 5); ("RANAP_M5_Period_ms4000", Some 6); ("RANAP_M5_Period_ms6000", Some 7)]);
  (* include/osmocom/ranap/RANAP_M5Report.h:24-30 *)
  ("RANAP_M5Report_PR", [("RANAP_M5Report_PR_NOTHING", None); ("RANAP_M5Report_PR_when_available", None); ("RANAP_M5Report_PR_m5_period", None)]);
  (* include/osmocom/ranap/RANAP_M6-Period.h:22-39 *)
  ("RANAP_M6_Period", [("RANAP_M6_Period_ms1000", Some 0); ("RANAP_M6_Period_ms2000", Some 1); ("RANAP_M6_Period_ms3000", Some 2); ("RANAP_M6_Period_ms4000", Some 3); ("RANAP_M6_Period_ms6000", Some 4); ("RANAP_M6_Period_ms8000", Some 5); ("RANAP_M6_Period_ms12000", Some 6); ("RANAP_M6_Period_ms16000", Some 7); ("RANAP_M6_Period_ms20000", Some 8); ("RANAP_M6_Period_ms24000", Some 9); ("RANAP_M6_Period_ms28000", Some 10); ("RANAP_M6_Period_ms32000", Some 11); ("RANAP_M6_Period_ms64000", Some 12)]);
  (* include/osmocom/ranap/RANAP_M7-Period.h:22-39 *)
  ("RANAP_M7_Period", [("RANAP_M7_Period_ms1000", Some 0); ("RANAP_M7_Period_ms2000", Some 1); ("RANAP_M7_Period_ms3000", Some 2); ("RANAP_M7_Period_ms4000", Some 3); ("RANAP_M7_Period_ms6000", Some 4); ("RANAP_M7_Period_ms8000", Some 5); ("RANAP_M7_Period_ms12000", Some 6); ("RANAP_M7_Period_ms16000", Some 7); ("RANAP_M7_Period_ms20000", Some 8); ("RANAP_M7_Period_ms24000", Some 9); ("RANAP_M7_Period_ms28000", Some 10); ("RANAP_M7_Period_ms32000", Some 11); ("RANAP_M7_Period_ms64000", Some 12)]);
  (* include/osmocom/ranap/RANAP_MBMSBearerServiceType.h:22-28 *)
  ("RANAP_MBMSBearerServiceType", [("RANAP_MBMSBearerServiceType_multicast", Some 0); ("RANAP_MBMSBearerServiceType_broadcast", Some 1)]);
  (* include/osmocom/ranap/RANAP_MBMSCNDe-Registration.h:22-28 *)
  ("RANAP_MBMSCNDe_Registration", [("RANAP_MBMSCNDe_Registration_normalsessionstop", Some 0); ("RANAP_MBMSCNDe_Registration_deregister", Some 1)]);
  (* include/osmocom/ranap/RANAP_MBMSCountingInformation.h:22-28 *)
  ("RANAP_MBMSCountingInformation", [("RANAP_MBMSCountingInformation_counting", Some 0); ("RANAP_MBMSCountingInformation_notcounting", Some 1)]);
  (* include/osmocom/ranap/RANAP_MBMSHCIndicator.h:22-28 *)
  ("RANAP_MBMSHCIndicator", [("RANAP_MBMSHCIndicator_uncompressed_header", Some 0); ("RANAP_MBMSHCIndicator_compressed_header", Some 1)]);
  (* include/osmocom/ranap/RANAP_MBMSLinkingInformation.h:22-27 *)
  ("RANAP_MBMSLinkingInformation", [("RANAP_MBMSLinkingInformation_uE_has_joined_multicast_services", Some 0)]);
  (* include/osmocom/ranap/RANAP_MBMSRegistrationRequestType.h:22-28 *)
  ("RANAP_MBMSRegistrationRequestType", [("RANAP_MBMSRegistrationRequestType_register", Some 0); ("RANAP_MBMSRegistrationRequestType_deregister", Some 1)]);
  (* include/osmocom/ranap/RANAP_MDT-Activation.h:22-29 *)
  ("RANAP_MDT_Activation", [("RANAP_MDT_Activation_immediateMDTonly", Some 0); ("RANAP_MDT_Activation_loggedMDTonly", Some 1); ("RANAP_MDT_Activation_immediateMDTandTrace", Some 2)]);
  (* include/osmocom/ranap/RANAP_MDTAreaScope.h:26-34 *)
  ("RANAP_MDTAreaScope_PR", [("RANAP_MDTAreaScope_PR_NOTHING", None); ("RANAP_MDTAreaScope_PR_cellbased", None); ("RANAP_MDTAreaScope_PR_labased", None); ("RANAP_MDTAreaScope_PR_rabased", None); ("RANAP_MDTAreaScope_PR_plmn_area_based", None)]);
  (* include/osmocom/ranap/RANAP_MDTMode.h:24-30 *)
  ("RANAP_MDTMode_PR", [("RANAP_MDTMode_PR_NOTHING", None); ("RANAP_MDTMode_PR_immediateMDT", None); ("RANAP_MDTMode_PR_loggedMDT", None)]);
  (* include/osmocom/ranap/RANAP_Management-Based-MDT-Allowed.h:22-27 *)
  ("RANAP_Management_Based_MDT_Allowed", [("RANAP_Management_Based_MDT_Allowed_allowed", Some 0)]);
  (* include/osmocom/ranap/RANAP_MeasBand.h:22-29 *)
  ("RANAP_MeasBand", [("RANAP_MeasBand_v6", Some 0); ("RANAP_MeasBand_v15", Some 1); ("RANAP_MeasBand_v25", Some 2); ("RANAP_MeasBand_v50", Some 3); ("RANAP_MeasBand_v75", Some 4); ("RANAP_MeasBand_v100", Some 5)]);
  (* include/osmocom/ranap/RANAP_MeasurementQuantity.h:22-29 *)
  ("RANAP_MeasurementQuantity", [("RANAP_MeasurementQuantity_cpichEcNo", Some 0); ("RANAP_MeasurementQuantity_cpichRSCP", Some 1); ("RANAP_MeasurementQuantity_pathloss", Some 2)]);
  (* include/osmocom/ranap/RANAP_NonSearchingIndication.h:22-25 *)
  ("RANAP_NonSearchingIndication", [("RANAP_NonSearchingIndication_non_searching", Some 0); ("RANAP_NonSearchingIndication_searching", Some 1)]);
  (* include/osmocom/ranap/RANAP_Out-Of-UTRAN.h:22-27 *)
  ("RANAP_Out_Of_UTRAN", [("RANAP_Out_Of_UTRAN_cell_reselection_to_EUTRAN", Some 0)]);
  (* include/osmocom/ranap/RANAP_PDP-Type-extension.h:22-27 *)
  ("RANAP_PDP_Type_extension", [("RANAP_PDP_Type_extension_ipv4_and_ipv6", Some 0)]);
  (* include/osmocom/ranap/RANAP_PDP-Type.h:22-31 *)
  ("RANAP_PDP_Type", [("RANAP_PDP_Type_empty", Some 0); ("RANAP_PDP_Type_ppp", Some 1); ("RANAP_PDP_Type_osp_ihoss", Some 2); ("RANAP_PDP_Type_ipv4", Some 3); ("RANAP_PDP_Type_ipv6", Some 4)]);
  (* include/osmocom/ranap/RANAP_PagingAreaID.h:24-30 *)
  ("RANAP_PagingAreaID_PR", [("RANAP_PagingAreaID_PR_NOTHING", None); ("RANAP_PagingAreaID_PR_lAI", None); ("RANAP_PagingAreaID_PR_rAI", None)]);
  (* include/osmocom/ranap/RANAP_PagingCause.h:22-32 *)
  ("RANAP_PagingCause", [("RANAP_PagingCause_terminating_conversational_call", Some 0); ("RANAP_PagingCause_terminating_streaming_call", Some 1); ("RANAP_PagingCause_terminating_interactive_call", Some 2); ("RANAP_PagingCause_terminating_background_call", Some 3); ("RANAP_PagingCause_terminating_low_priority_signalling", Some 4); ("RANAP_PagingCause_terminating_high_priority_signalling", Some 5)]);
  (* include/osmocom/ranap/RANAP_PeriodicReportingIndicator.h:22-28 *)
  ("RANAP_PeriodicReportingIndicator", [("RANAP_PeriodicReportingIndicator_periodicSAI", Some 0); ("RANAP_PeriodicReportingIndicator_periodicGeo", Some 1)]);
  (* include/osmocom/ranap/RANAP_PermanentNAS-UE-ID.h:23-28 *)
  ("RANAP_PermanentNAS_UE_ID_PR", [("RANAP_PermanentNAS_UE_ID_PR_NOTHING", None); ("RANAP_PermanentNAS_UE_ID_PR_iMSI", None)]);
  (* include/osmocom/ranap/RANAP_PositioningPriority.h:22-28 *)
  ("RANAP_PositioningPriority", [("RANAP_PositioningPriority_high_Priority", Some 0); ("RANAP_PositioningPriority_normal_Priority", Some 1)]);
  (* include/osmocom/ranap/RANAP_Pre-emptionCapability.h:22-25 *)
  ("RANAP_Pre_emptionCapability", [("RANAP_Pre_emptionCapability_shall_not_trigger_pre_emption", Some 0); ("RANAP_Pre_emptionCapability_may_trigger_pre_emption", Some 1)]);
  (* include/osmocom/ranap/RANAP_Pre-emptionVulnerability.h:22-25 *)
  ("RANAP_Pre_emptionVulnerability", [("RANAP_Pre_emptionVulnerability_not_pre_emptable", Some 0); ("RANAP_Pre_emptionVulnerability_pre_emptable", Some 1)]);
  (* include/osmocom/ranap/RANAP_Presence.h:22-26 *)
  ("RANAP_Presence", [("RANAP_Presence_optional", Some 0); ("RANAP_Presence_conditional", Some 1); ("RANAP_Presence_mandatory", Some 2)]);
  (* include/osmocom/ranap/RANAP_PriorityLevel.h:22-27 *)
  ("RANAP_PriorityLevel", [("RANAP_PriorityLevel_spare", Some 0); ("RANAP_PriorityLevel_highest", Some 1); ("RANAP_PriorityLevel_lowest", Some 14); ("RANAP_PriorityLevel_no_priority", Some 15)]);
  (* include/osmocom/ranap/RANAP_PrivateIE-ID.h:24-28 *)
  ("RANAP_PrivateIE_ID_PR", [("RANAP_PrivateIE_ID_PR_NOTHING", None); ("RANAP_PrivateIE_ID_PR_local", None); ("RANAP_PrivateIE_ID_PR_global", None)]);
  (* include/osmocom/ranap/RANAP_ProcedureCode.h:22-70 *)
  ("RANAP_ProcedureCode", [("RANAP_ProcedureCode_id_RAB_Assignment", Some 0); ("RANAP_ProcedureCode_id_Iu_Release", Some 1); ("RANAP_ProcedureCode_id_RelocationPreparation", Some 2); ("RANAP_ProcedureCode_id_RelocationResourceAllocation", Some 3); ("RANAP_ProcedureCode_id_RelocationCancel", Some 4); ("RANAP_ProcedureCode_id_SRNS_ContextTransfer", Some 5); ("RANAP_ProcedureCode_id_SecurityModeControl", Some 6); ("RANAP_ProcedureCode_id_DataVolumeReport", Some 7); ("RANAP_ProcedureCode_id_Reset", Some 9); ("RANAP_ProcedureCode_id_RAB_ReleaseRequest", Some 10); ("RANAP_ProcedureCode_id_Iu_ReleaseRequest", Some 11); ("RANAP_ProcedureCode_id_RelocationDetect", Some 12); ("RANAP_ProcedureCode_id_RelocationComplete", Some 13); ("RANAP_ProcedureCode_id_Paging", Some 14); ("RANAP_ProcedureCode_id_CommonID", Some 15); ("RANAP_ProcedureCode_id_CN_InvokeTrace", Some 16); ("RANAP_ProcedureCode_id_LocationReportingControl", Some 17); ("RANAP_ProcedureCode_id_LocationReport", Some 18); ("RANAP_ProcedureCode_id_InitialUE_Message", Some 19); ("RANAP_ProcedureCode_id_DirectTransfer", Some 20); ("RANAP_ProcedureCode_id_OverloadControl", Some 21); ("RANAP_ProcedureCode_id_ErrorIndication", Some 22); ("RANAP_ProcedureCode_id_SRNS_DataForward", Some 23); ("RANAP_ProcedureCode_id_ForwardSRNS_Context", Some 24); ("RANAP_ProcedureCode_id_privateMessage", Some 25); ("RANAP_ProcedureCode_id_CN_DeactivateTrace", Some 26); ("RANAP_ProcedureCode_id_ResetResource", Some 27); ("RANAP_ProcedureCode_id_RANAP_Relocation", Some 28); ("RANAP_ProcedureCode_id_RAB_ModifyRequest", Some 29); ("RANAP_ProcedureCode_id_LocationRelatedData", Some 30); ("RANAP_ProcedureCode_id_InformationTransfer", Some 31); ("RANAP_ProcedureCode_id_UESpecificInformation", Some 32); ("RANAP_ProcedureCode_id_UplinkInformationExchange", Some 33); ("RANAP_ProcedureCode_id_DirectInformationTransfer", Some 34); ("RANAP_ProcedureCode_id_MBMSSessionStart", Some 35); ("RANAP_ProcedureCode_id_MBMSSessionUpdate", Some 36); ("RANAP_ProcedureCode_id_MBMSSessionStop", Some 37); ("RANAP_ProcedureCode_id_MBMSUELinking", Some 38); ("RANAP_ProcedureCode_id_MBMSRegistration", Some 39); ("RANAP_ProcedureCode_id_MBMSCNDe_Registration_Procedure", Some 40); ("RANAP_ProcedureCode_id_MBMSRABEstablishmentIndication", Some 41); ("RANAP_ProcedureCode_id_MBMSRABRelease", Some 42); ("RANAP_ProcedureCode_id_enhancedRelocationComplete", Some 43); ("RANAP_ProcedureCode_id_enhancedRelocationCompleteConfirm", Some 44); ("RANAP_ProcedureCode_id_RANAPenhancedRelocation", Some 45); ("RANAP_ProcedureCode_id_SRVCCPreparation", Some 46); ("RANAP_ProcedureCode_id_UeRadioCapabilityMatch", Some 47)]);
  (* include/osmocom/ranap/RANAP_ProtocolIE-ID.h:22-295 *)
  ("RANAP_ProtocolIE_ID", [("RANAP_ProtocolIE_ID_id_AreaIdentity", Some 0); ("RANAP_ProtocolIE_ID_id_CN_DomainIndicator", Some 3); ("RANAP_ProtocolIE_ID_id_Cause", Some 4); ("RANAP_ProtocolIE_ID_id_ChosenEncryptionAlgorithm", Some 5); ("RANAP_ProtocolIE_ID_id_ChosenIntegrityProtectionAlgorithm", Some 6); ("RANAP_ProtocolIE_ID_id_ClassmarkInformation2", Some 7); ("RANAP_ProtocolIE_ID_id_ClassmarkInformation3", Some 8); ("RANAP_ProtocolIE_ID_id_CriticalityDiagnostics", Some 9); ("RANAP_ProtocolIE_ID_id_DL_GTP_PDU_SequenceNumber", Some 10); ("RANAP_ProtocolIE_ID_id_EncryptionInformation", Some 11); ("RANAP_ProtocolIE_ID_id_IntegrityProtectionInformation", Some 12); ("RANAP_ProtocolIE_ID_id_IuTransportAssociation", Some 13); ("RANAP_ProtocolIE_ID_id_L3_Information", Some 14); ("RANAP_ProtocolIE_ID_id_LAI", Some 15); ("RANAP_ProtocolIE_ID_id_NAS_PDU", Some 16); ("RANAP_ProtocolIE_ID_id_NonSearchingIndication", Some 17); ("RANAP_ProtocolIE_ID_id_NumberOfSteps", Some 18); ("RANAP_ProtocolIE_ID_id_OMC_ID", Some 19); ("RANAP_ProtocolIE_ID_id_OldBSS_ToNewBSS_Information", Some 20); ("RANAP_ProtocolIE_ID_id_PagingAreaID", Some 21); ("RANAP_ProtocolIE_ID_id_PagingCause", Some 22); ("RANAP_ProtocolIE_ID_id_PermanentNAS_UE_ID", Some 23); ("RANAP_ProtocolIE_ID_id_RAB_ContextItem", Some 24); ("RANAP_ProtocolIE_ID_id_RAB_ContextList", Some 25); ("RANAP_ProtocolIE_ID_id_RAB_DataForwardingItem", Some 26); ("RANAP_ProtocolIE_ID_id_RAB_DataForwardingItem_SRNS_CtxReq", Some 27); ("RANAP_ProtocolIE_ID_id_RAB_DataForwardingList", Some 28); ("RANAP_ProtocolIE_ID_id_RAB_DataForwardingList_SRNS_CtxReq", Some 29); ("RANAP_ProtocolIE_ID_id_RAB_DataVolumeReportItem", Some 30); ("RANAP_ProtocolIE_ID_id_RAB_DataVolumeReportList", Some 31); ("RANAP_ProtocolIE_ID_id_RAB_DataVolumeReportRequestItem", Some 32); ("RANAP_ProtocolIE_ID_id_RAB_DataVolumeReportRequestList", Some 33); ("RANAP_ProtocolIE_ID_id_RAB_FailedItem", Some 34); ("RANAP_ProtocolIE_ID_id_RAB_FailedList", Some 35); ("RANAP_ProtocolIE_ID_id_RAB_ID", Some 36); ("RANAP_ProtocolIE_ID_id_RAB_QueuedItem", Some 37); ("RANAP_ProtocolIE_ID_id_RAB_QueuedList", Some 38); ("RANAP_ProtocolIE_ID_id_RAB_ReleaseFailedList", Some 39); ("RANAP_ProtocolIE_ID_id_RAB_ReleaseItem", Some 40); ("RANAP_ProtocolIE_ID_id_RAB_ReleaseList", Some 41); ("RANAP_ProtocolIE_ID_id_RAB_ReleasedItem", Some 42); ("RANAP_ProtocolIE_ID_id_RAB_ReleasedList", Some 43); ("RANAP_ProtocolIE_ID_id_RAB_ReleasedList_IuRelComp", Some 44); ("RANAP_ProtocolIE_ID_id_RAB_RelocationReleaseItem", Some 45); ("RANAP_ProtocolIE_ID_id_RAB_RelocationReleaseList", Some 46); ("RANAP_ProtocolIE_ID_id_RAB_SetupItem_RelocReq", Some 47); ("RANAP_ProtocolIE_ID_id_RAB_SetupItem_RelocReqAck", Some 48); ("RANAP_ProtocolIE_ID_id_RAB_SetupList_RelocReq", Some 49); ("RANAP_ProtocolIE_ID_id_RAB_SetupList_RelocReqAck", Some 50); ("RANAP_ProtocolIE_ID_id_RAB_SetupOrModifiedItem", Some 51); ("RANAP_ProtocolIE_ID_id_RAB_SetupOrModifiedList", Some 52); ("RANAP_ProtocolIE_ID_id_RAB_SetupOrModifyItem", Some 53); ("RANAP_ProtocolIE_ID_id_RAB_SetupOrModifyList", Some 54); ("RANAP_ProtocolIE_ID_id_RAC", Some 55); ("RANAP_ProtocolIE_ID_id_RelocationType", Some 56); ("RANAP_ProtocolIE_ID_id_RequestType", Some 57); ("RANAP_ProtocolIE_ID_id_SAI", Some 58); ("RANAP_ProtocolIE_ID_id_SAPI", Some 59); ("RANAP_ProtocolIE_ID_id_SourceID", Some 60); ("RANAP_ProtocolIE_ID_id_Source_ToTarget_TransparentContainer", Some 61); ("RANAP_ProtocolIE_ID_id_TargetID", Some 62); ("RANAP_ProtocolIE_ID_id_Target_ToSource_TransparentContainer", Some 63); ("RANAP_ProtocolIE_ID_id_TemporaryUE_ID", Some 64); ("RANAP_ProtocolIE_ID_id_TraceReference", Some 65); ("RANAP_ProtocolIE_ID_id_TraceType", Some 66); ("RANAP_ProtocolIE_ID_id_TransportLayerAddress", Some 67); ("RANAP_ProtocolIE_ID_id_TriggerID", Some 68); ("RANAP_ProtocolIE_ID_id_UE_ID", Some 69); ("RANAP_ProtocolIE_ID_id_UL_GTP_PDU_SequenceNumber", Some 70); ("RANAP_ProtocolIE_ID_id_RAB_FailedtoReportItem", Some 71); ("RANAP_ProtocolIE_ID_id_RAB_FailedtoReportList", Some 72); ("RANAP_ProtocolIE_ID_id_KeyStatus", Some 75); ("RANAP_ProtocolIE_ID_id_DRX_CycleLengthCoefficient", Some 76); ("RANAP_ProtocolIE_ID_id_IuSigConIdList", Some 77); ("RANAP_ProtocolIE_ID_id_IuSigConIdItem", Some 78); ("RANAP_ProtocolIE_ID_id_IuSigConId", Some 79); ("RANAP_ProtocolIE_ID_id_DirectTransferInformationItem_RANAP_RelocInf", Some 80); ("RANAP_ProtocolIE_ID_id_DirectTransferInformationList_RANAP_RelocInf", Some 81); ("RANAP_ProtocolIE_ID_id_RAB_ContextItem_RANAP_RelocInf", Some 82); ("RANAP_ProtocolIE_ID_id_RAB_ContextList_RANAP_RelocInf", Some 83); ("RANAP_ProtocolIE_ID_id_RAB_ContextFailedtoTransferItem", Some 84); ("RANAP_ProtocolIE_ID_id_RAB_ContextFailedtoTransferList", Some 85); ("RANAP_ProtocolIE_ID_id_GlobalRNC_ID", Some 86); ("RANAP_ProtocolIE_ID_id_RAB_ReleasedItem_IuRelComp", Some 87); ("RANAP_ProtocolIE_ID_id_MessageStructure", Some 88); ("RANAP_ProtocolIE_ID_id_Alt_RAB_Parameters", Some 89); ("RANAP_ProtocolIE_ID_id_Ass_RAB_Parameters", Some 90); ("RANAP_ProtocolIE_ID_id_RAB_ModifyList", Some 91); ("RANAP_ProtocolIE_ID_id_RAB_ModifyItem", Some 92); ("RANAP_ProtocolIE_ID_id_TypeOfError", Some 93); ("RANAP_ProtocolIE_ID_id_BroadcastAssistanceDataDecipheringKeys", Some 94); ("RANAP_ProtocolIE_ID_id_LocationRelatedDataRequestType", Some 95); ("RANAP_ProtocolIE_ID_id_GlobalCN_ID", Some 96); ("RANAP_ProtocolIE_ID_id_LastKnownServiceArea", Some 97); ("RANAP_ProtocolIE_ID_id_SRB_TrCH_Mapping", Some 98); ("RANAP_ProtocolIE_ID_id_InterSystemInformation_TransparentContainer", Some 99); ("RANAP_ProtocolIE_ID_id_NewBSS_To_OldBSS_Information", Some 100); ("RANAP_ProtocolIE_ID_id_SourceRNC_PDCP_context_info", Some 103); ("RANAP_ProtocolIE_ID_id_InformationTransferID", Some 104); ("RANAP_ProtocolIE_ID_id_SNA_Access_Information", Some 105); ("RANAP_ProtocolIE_ID_id_ProvidedData", Some 106); ("RANAP_ProtocolIE_ID_id_GERAN_BSC_Container", Some 107); ("RANAP_ProtocolIE_ID_id_GERAN_Classmark", Some 108); ("RANAP_ProtocolIE_ID_id_GERAN_Iumode_RAB_Failed_RABAssgntResponse_Item", Some 109); ("RANAP_ProtocolIE_ID_id_GERAN_Iumode_RAB_FailedList_RABAssgntResponse", Some 110); ("RANAP_ProtocolIE_ID_id_VerticalAccuracyCode", Some 111); ("RANAP_ProtocolIE_ID_id_ResponseTime", Some 112); ("RANAP_ProtocolIE_ID_id_PositioningPriority", Some 113); ("RANAP_ProtocolIE_ID_id_ClientType", Some 114); ("RANAP_ProtocolIE_ID_id_LocationRelatedDataRequestTypeSpecificToGERANIuMode", Some 115); ("RANAP_ProtocolIE_ID_id_SignallingIndication", Some 116); ("RANAP_ProtocolIE_ID_id_hS_DSCH_MAC_d_Flow_ID", Some 117); ("RANAP_ProtocolIE_ID_id_UESBI_Iu", Some 118); ("RANAP_ProtocolIE_ID_id_PositionData", Some 119); ("RANAP_ProtocolIE_ID_id_PositionDataSpecificToGERANIuMode", Some 120); ("RANAP_ProtocolIE_ID_id_CellLoadInformationGroup", Some 121); ("RANAP_ProtocolIE_ID_id_AccuracyFulfilmentIndicator", Some 122); ("RANAP_ProtocolIE_ID_id_InformationTransferType", Some 123); ("RANAP_ProtocolIE_ID_id_TraceRecordingSessionInformation", Some 124); ("RANAP_ProtocolIE_ID_id_TracePropagationParameters", Some 125); ("RANAP_ProtocolIE_ID_id_InterSystemInformationTransferType", Some 126); ("RANAP_ProtocolIE_ID_id_SelectedPLMN_ID", Some 127); ("RANAP_ProtocolIE_ID_id_RedirectionCompleted", Some 128); ("RANAP_ProtocolIE_ID_id_RedirectionIndication", Some 129); ("RANAP_ProtocolIE_ID_id_NAS_SequenceNumber", Some 130); ("RANAP_ProtocolIE_ID_id_RejectCauseValue", Some 131); ("RANAP_ProtocolIE_ID_id_APN", Some 132); ("RANAP_ProtocolIE_ID_id_CNMBMSLinkingInformation", Some 133); ("RANAP_ProtocolIE_ID_id_DeltaRAListofIdleModeUEs", Some 134); ("RANAP_ProtocolIE_ID_id_FrequenceLayerConvergenceFlag", Some 135); ("RANAP_ProtocolIE_ID_id_InformationExchangeID", Some 136); ("RANAP_ProtocolIE_ID_id_InformationExchangeType", Some 137); ("RANAP_ProtocolIE_ID_id_InformationRequested", Some 138); ("RANAP_ProtocolIE_ID_id_InformationRequestType", Some 139); ("RANAP_ProtocolIE_ID_id_IPMulticastAddress", Some 140); ("RANAP_ProtocolIE_ID_id_JoinedMBMSBearerServicesList", Some 141); ("RANAP_ProtocolIE_ID_id_LeftMBMSBearerServicesList", Some 142); ("RANAP_ProtocolIE_ID_id_MBMSBearerServiceType", Some 143); ("RANAP_ProtocolIE_ID_id_MBMSCNDe_Registration", Some 144); ("RANAP_ProtocolIE_ID_id_MBMSServiceArea", Some 145); ("RANAP_ProtocolIE_ID_id_MBMSSessionDuration", Some 146); ("RANAP_ProtocolIE_ID_id_MBMSSessionIdentity", Some 147); ("RANAP_ProtocolIE_ID_id_PDP_TypeInformation", Some 148); ("RANAP_ProtocolIE_ID_id_RAB_Parameters", Some 149); ("RANAP_ProtocolIE_ID_id_RAListofIdleModeUEs", Some 150); ("RANAP_ProtocolIE_ID_id_MBMSRegistrationRequestType", Some 151); ("RANAP_ProtocolIE_ID_id_SessionUpdateID", Some 152); ("RANAP_ProtocolIE_ID_id_TMGI", Some 153); ("RANAP_ProtocolIE_ID_id_TransportLayerInformation", Some 154); ("RANAP_ProtocolIE_ID_id_UnsuccessfulLinkingList", Some 155); ("RANAP_ProtocolIE_ID_id_MBMSLinkingInformation", Some 156); ("RANAP_ProtocolIE_ID_id_MBMSSessionRepetitionNumber", Some 157); ("RANAP_ProtocolIE_ID_id_AlternativeRABConfiguration", Some 158); ("RANAP_ProtocolIE_ID_id_AlternativeRABConfigurationRequest", Some 159); ("RANAP_ProtocolIE_ID_id_E_DCH_MAC_d_Flow_ID", Some 160); ("RANAP_ProtocolIE_ID_id_SourceBSS_ToTargetBSS_TransparentContainer", Some 161); ("RANAP_ProtocolIE_ID_id_TargetBSS_ToSourceBSS_TransparentContainer", Some 162); ("RANAP_ProtocolIE_ID_id_TimeToMBMSDataTransfer", Some 163); ("RANAP_ProtocolIE_ID_id_IncludeVelocity", Some 164); ("RANAP_ProtocolIE_ID_id_VelocityEstimate", Some 165); ("RANAP_ProtocolIE_ID_id_RedirectAttemptFlag", Some 166); ("RANAP_ProtocolIE_ID_id_RAT_Type", Some 167); ("RANAP_ProtocolIE_ID_id_PeriodicLocationInfo", Some 168); ("RANAP_ProtocolIE_ID_id_MBMSCountingInformation", Some 169); ("RANAP_ProtocolIE_ID_id_170_not_to_be_used_for_IE_ids", Some 170); ("RANAP_ProtocolIE_ID_id_ExtendedRNC_ID", Some 171); ("RANAP_ProtocolIE_ID_id_Alt_RAB_Parameter_ExtendedGuaranteedBitrateInf", Some 172); ("RANAP_ProtocolIE_ID_id_Alt_RAB_Parameter_ExtendedMaxBitrateInf", Some 173); ("RANAP_ProtocolIE_ID_id_Ass_RAB_Parameter_ExtendedGuaranteedBitrateList", Some 174); ("RANAP_ProtocolIE_ID_id_Ass_RAB_Parameter_ExtendedMaxBitrateList", Some 175); ("RANAP_ProtocolIE_ID_id_RAB_Parameter_ExtendedGuaranteedBitrateList", Some 176); ("RANAP_ProtocolIE_ID_id_RAB_Parameter_ExtendedMaxBitrateList", Some 177); ("RANAP_ProtocolIE_ID_id_Requested_RAB_Parameter_ExtendedMaxBitrateList", Some 178); ("RANAP_ProtocolIE_ID_id_Requested_RAB_Parameter_ExtendedGuaranteedBitrateList", Some 179); ("RANAP_ProtocolIE_ID_id_LAofIdleModeUEs", Some 180); ("RANAP_ProtocolIE_ID_id_newLAListofIdleModeUEs", Some 181); ("RANAP_ProtocolIE_ID_id_LAListwithNoIdleModeUEsAnyMore", Some 182); ("RANAP_ProtocolIE_ID_id_183_not_to_be_used_for_IE_ids", Some 183); ("RANAP_ProtocolIE_ID_id_GANSS_PositioningDataSet", Some 184); ("RANAP_ProtocolIE_ID_id_RequestedGANSSAssistanceData", Some 185); ("RANAP_ProtocolIE_ID_id_BroadcastGANSSAssistanceDataDecipheringKeys", Some 186); ("RANAP_ProtocolIE_ID_id_d_RNTI_for_NoIuCSUP", Some 187); ("RANAP_ProtocolIE_ID_id_RAB_SetupList_EnhancedRelocCompleteReq", Some 188); ("RANAP_ProtocolIE_ID_id_RAB_SetupItem_EnhancedRelocCompleteReq", Some 189); ("RANAP_ProtocolIE_ID_id_RAB_SetupList_EnhancedRelocCompleteRes", Some 190); ("RANAP_ProtocolIE_ID_id_RAB_SetupItem_EnhancedRelocCompleteRes", Some 191); ("RANAP_ProtocolIE_ID_id_RAB_SetupList_EnhRelocInfoReq", Some 192); ("RANAP_ProtocolIE_ID_id_RAB_SetupItem_EnhRelocInfoReq", Some 193); ("RANAP_ProtocolIE_ID_id_RAB_SetupList_EnhRelocInfoRes", Some 194); ("RANAP_ProtocolIE_ID_id_RAB_SetupItem_EnhRelocInfoRes", Some 195); ("RANAP_ProtocolIE_ID_id_OldIuSigConId", Some 196); ("RANAP_ProtocolIE_ID_id_RAB_FailedList_EnhRelocInfoRes", Some 197); ("RANAP_ProtocolIE_ID_id_RAB_FailedItem_EnhRelocInfoRes", Some 198); ("RANAP_ProtocolIE_ID_id_Global_ENB_ID", Some 199); ("RANAP_ProtocolIE_ID_id_UE_History_Information", Some 200); ("RANAP_ProtocolIE_ID_id_MBMSSynchronisationInformation", Some 201); ("RANAP_ProtocolIE_ID_id_SubscriberProfileIDforRFP", Some 202); ("RANAP_ProtocolIE_ID_id_CSG_Id", Some 203); ("RANAP_ProtocolIE_ID_id_OldIuSigConIdCS", Some 204); ("RANAP_ProtocolIE_ID_id_OldIuSigConIdPS", Some 205); ("RANAP_ProtocolIE_ID_id_GlobalCN_IDCS", Some 206); ("RANAP_ProtocolIE_ID_id_GlobalCN_IDPS", Some 207); ("RANAP_ProtocolIE_ID_id_SourceExtendedRNC_ID", Some 208); ("RANAP_ProtocolIE_ID_id_RAB_ToBeReleasedItem_EnhancedRelocCompleteRes", Some 209); ("RANAP_ProtocolIE_ID_id_RAB_ToBeReleasedList_EnhancedRelocCompleteRes", Some 210); ("RANAP_ProtocolIE_ID_id_SourceRNC_ID", Some 211); ("RANAP_ProtocolIE_ID_id_Relocation_TargetRNC_ID", Some 212); ("RANAP_ProtocolIE_ID_id_Relocation_TargetExtendedRNC_ID", Some 213); ("RANAP_ProtocolIE_ID_id_Alt_RAB_Parameter_SupportedGuaranteedBitrateInf", Some 214); ("RANAP_ProtocolIE_ID_id_Alt_RAB_Parameter_SupportedMaxBitrateInf", Some 215); ("RANAP_ProtocolIE_ID_id_Ass_RAB_Parameter_SupportedGuaranteedBitrateList", Some 216); ("RANAP_ProtocolIE_ID_id_Ass_RAB_Parameter_SupportedMaxBitrateList", Some 217); ("RANAP_ProtocolIE_ID_id_RAB_Parameter_SupportedGuaranteedBitrateList", Some 218); ("RANAP_ProtocolIE_ID_id_RAB_Parameter_SupportedMaxBitrateList", Some 219); ("RANAP_ProtocolIE_ID_id_Requested_RAB_Parameter_SupportedMaxBitrateList", Some 220); ("RANAP_ProtocolIE_ID_id_Requested_RAB_Parameter_SupportedGuaranteedBitrateList", Some 221); ("RANAP_ProtocolIE_ID_id_Relocation_SourceRNC_ID", Some 222); ("RANAP_ProtocolIE_ID_id_Relocation_SourceExtendedRNC_ID", Some 223); ("RANAP_ProtocolIE_ID_id_EncryptionKey", Some 224); ("RANAP_ProtocolIE_ID_id_IntegrityProtectionKey", Some 225); ("RANAP_ProtocolIE_ID_id_SRVCC_HO_Indication", Some 226); ("RANAP_ProtocolIE_ID_id_SRVCC_Information", Some 227); ("RANAP_ProtocolIE_ID_id_SRVCC_Operation_Possible", Some 228); ("RANAP_ProtocolIE_ID_id_CSG_Id_List", Some 229); ("RANAP_ProtocolIE_ID_id_PSRABtobeReplaced", Some 230); ("RANAP_ProtocolIE_ID_id_E_UTRAN_Service_Handover", Some 231); ("RANAP_ProtocolIE_ID_id_UE_AggregateMaximumBitRate", Some 233); ("RANAP_ProtocolIE_ID_id_CSG_Membership_Status", Some 234); ("RANAP_ProtocolIE_ID_id_Cell_Access_Mode", Some 235); ("RANAP_ProtocolIE_ID_id_IP_Source_Address", Some 236); ("RANAP_ProtocolIE_ID_id_CSFB_Information", Some 237); ("RANAP_ProtocolIE_ID_id_PDP_TypeInformation_extension", Some 238); ("RANAP_ProtocolIE_ID_id_MSISDN", Some 239); ("RANAP_ProtocolIE_ID_id_Offload_RAB_Parameters", Some 240); ("RANAP_ProtocolIE_ID_id_LGW_TransportLayerAddress", Some 241); ("RANAP_ProtocolIE_ID_id_Correlation_ID", Some 242); ("RANAP_ProtocolIE_ID_id_IRAT_Measurement_Configuration", Some 243); ("RANAP_ProtocolIE_ID_id_MDT_Configuration", Some 244); ("RANAP_ProtocolIE_ID_id_Priority_Class_Indicator", Some 245); ("RANAP_ProtocolIE_ID_id_RNSAPRelocationParameters", Some 247); ("RANAP_ProtocolIE_ID_id_RABParametersList", Some 248); ("RANAP_ProtocolIE_ID_id_Management_Based_MDT_Allowed", Some 249); ("RANAP_ProtocolIE_ID_id_HigherBitratesThan16MbpsFlag", Some 250); ("RANAP_ProtocolIE_ID_id_Trace_Collection_Entity_IP_Addess", Some 251); ("RANAP_ProtocolIE_ID_id_End_Of_CSFB", Some 252); ("RANAP_ProtocolIE_ID_id_Time_UE_StayedInCell_EnhancedGranularity", Some 253); ("RANAP_ProtocolIE_ID_id_Out_Of_UTRAN", Some 254); ("RANAP_ProtocolIE_ID_id_TraceRecordingSessionReference", Some 255); ("RANAP_ProtocolIE_ID_id_IMSI", Some 256); ("RANAP_ProtocolIE_ID_id_HO_Cause", Some 257); ("RANAP_ProtocolIE_ID_id_VoiceSupportMatchIndicator", Some 258); ("RANAP_ProtocolIE_ID_id_RSRVCC_HO_Indication", Some 259); ("RANAP_ProtocolIE_ID_id_RSRVCC_Information", Some 260); ("RANAP_ProtocolIE_ID_id_AnchorPLMN_ID", Some 261); ("RANAP_ProtocolIE_ID_id_Tunnel_Information_for_BBF", Some 262); ("RANAP_ProtocolIE_ID_id_Management_Based_MDT_PLMN_List", Some 263); ("RANAP_ProtocolIE_ID_id_SignallingBasedMDTPLMNList", Some 264); ("RANAP_ProtocolIE_ID_id_M4Report", Some 265); ("RANAP_ProtocolIE_ID_id_M5Report", Some 266); ("RANAP_ProtocolIE_ID_id_M6Report", Some 267); ("RANAP_ProtocolIE_ID_id_M7Report", Some 268); ("RANAP_ProtocolIE_ID_id_TimingDifferenceULDL", Some 269); ("RANAP_ProtocolIE_ID_id_Serving_Cell_Identifier", Some 270); ("RANAP_ProtocolIE_ID_id_EARFCN_Extended", Some 271); ("RANAP_ProtocolIE_ID_id_RSRVCC_Operation_Possible", Some 272); ("RANAP_ProtocolIE_ID_id_SIPTO_LGW_TransportLayerAddress", Some 273); ("RANAP_ProtocolIE_ID_id_SIPTO_Correlation_ID", Some 274); ("RANAP_ProtocolIE_ID_id_LHN_ID", Some 275); ("RANAP_ProtocolIE_ID_id_Session_Re_establishment_Indicator", Some 276); ("RANAP_ProtocolIE_ID_id_LastE_UTRANPLMNIdentity", Some 277); ("RANAP_ProtocolIE_ID_id_RSRQ_Type", Some 278); ("RANAP_ProtocolIE_ID_id_RSRQ_Extension", Some 279)]);
  (* include/osmocom/ranap/RANAP_ProvidedData.h:23-28 *)
  ("RANAP_ProvidedData_PR", [("RANAP_ProvidedData_PR_NOTHING", None); ("RANAP_ProvidedData_PR_shared_network_information", None)]);
  (* include/osmocom/ranap/RANAP_QueuingAllowed.h:22-25 *)
  ("RANAP_QueuingAllowed", [("RANAP_QueuingAllowed_queueing_not_allowed", Some 0); ("RANAP_QueuingAllowed_queueing_allowed", Some 1)]);
  (* include/osmocom/ranap/RANAP_RAB-AsymmetryIndicator.h:22-30 *)
  ("RANAP_RAB_AsymmetryIndicator", [("RANAP_RAB_AsymmetryIndicator_symmetric_bidirectional", Some 0); ("RANAP_RAB_AsymmetryIndicator_asymmetric_unidirectional_downlink", Some 1); ("RANAP_RAB_AsymmetryIndicator_asymmetric_unidirectional_uplink", Some 2); ("RANAP_RAB_AsymmetryIndicator_asymmetric_bidirectional", Some 3)]);
  (* include/osmocom/ranap/RANAP_RAListofIdleModeUEs.h:24-30 *)
  ("RANAP_RAListofIdleModeUEs_PR", [("RANAP_RAListofIdleModeUEs_PR_NOTHING", None); ("RANAP_RAListofIdleModeUEs_PR_notEmptyRAListofIdleModeUEs", None); ("RANAP_RAListofIdleModeUEs_PR_emptyFullRAListofIdleModeUEs", None)]);
  (* include/osmocom/ranap/RANAP_RAListofIdleModeUEs.h:31-37 *)
  ("RANAP_RAListofIdleModeUEs__emptyFullRAListofIdleModeUEs", [("RANAP_RAListofIdleModeUEs__emptyFullRAListofIdleModeUEs_emptylist", Some 0); ("RANAP_RAListofIdleModeUEs__emptyFullRAListofIdleModeUEs_fulllist", Some 1)]);
  (* include/osmocom/ranap/RANAP_RANAP-PDU.h:26-34 *)
  ("RANAP_RANAP_PDU_PR", [("RANAP_RANAP_PDU_PR_NOTHING", None); ("RANAP_RANAP_PDU_PR_initiatingMessage", None); ("RANAP_RANAP_PDU_PR_successfulOutcome", None); ("RANAP_RANAP_PDU_PR_unsuccessfulOutcome", None); ("RANAP_RANAP_PDU_PR_outcome", None)]);
  (* include/osmocom/ranap/RANAP_RAT-Type.h:22-28 *)
  ("RANAP_RAT_Type", [("RANAP_RAT_Type_utran", Some 0); ("RANAP_RAT_Type_geran", Some 1)]);
  (* include/osmocom/ranap/RANAP_RIMRoutingAddress.h:25-31 *)
  ("RANAP_RIMRoutingAddress_PR", [("RANAP_RIMRoutingAddress_PR_NOTHING", None); ("RANAP_RIMRoutingAddress_PR_targetRNC_ID", None); ("RANAP_RIMRoutingAddress_PR_gERAN_Cell_ID", None); ("RANAP_RIMRoutingAddress_PR_targeteNB_ID", None)]);
  (* include/osmocom/ranap/RANAP_RNCTraceInformation.h:26-29 *)
  ("RANAP_RNCTraceInformation__traceActivationIndicato", [("RANAP_RNCTraceInformation__traceActivationIndicato_activated", Some 0); ("RANAP_RNCTraceInformation__traceActivationIndicato_deactivated", Some 1)]);
  (* include/osmocom/ranap/RANAP_RSRVCC-HO-Indication.h:22-27 *)
  ("RANAP_RSRVCC_HO_Indication", [("RANAP_RSRVCC_HO_Indication_ps_only", Some 0)]);
  (* include/osmocom/ranap/RANAP_RSRVCC-Operation-Possible.h:22-27 *)
  ("RANAP_RSRVCC_Operation_Possible", [("RANAP_RSRVCC_Operation_Possible_rsrvcc_possible", Some 0)]);
  (* include/osmocom/ranap/RANAP_RateControlAllowed.h:22-25 *)
  ("RANAP_RateControlAllowed", [("RANAP_RateControlAllowed_not_allowed", Some 0); ("RANAP_RateControlAllowed_allowed", Some 1)]);
  (* include/osmocom/ranap/RANAP_RedirectionCompleted.h:22-27 *)
  ("RANAP_RedirectionCompleted", [("RANAP_RedirectionCompleted_redirection_completed", Some 0)]);
  (* include/osmocom/ranap/RANAP_RejectCauseValue.h:22-34 *)
  ("RANAP_RejectCauseValue", [("RANAP_RejectCauseValue_pLMN_Not_Allowed", Some 0); ("RANAP_RejectCauseValue_location_Area_Not_Allowed", Some 1); ("RANAP_RejectCauseValue_roaming_Not_Allowed_In_This_Location_Area", Some 2); ("RANAP_RejectCauseValue_no_Suitable_Cell_In_Location_Area", Some 3); ("RANAP_RejectCauseValue_gPRS_Services_Not_Allowed_In_This_PLMN", Some 4); ("RANAP_RejectCauseValue_cS_PS_coordination_required", Some 5); ("RANAP_RejectCauseValue_network_failure", Some 6); ("RANAP_RejectCauseValue_not_authorized_for_this_CSG", Some 7)]);
  (* include/osmocom/ranap/RANAP_RelocationRequirement.h:22-29 *)
  ("RANAP_RelocationRequirement", [("RANAP_RelocationRequirement_lossless", Some 0); ("RANAP_RelocationRequirement_none", Some 1); ("RANAP_RelocationRequirement_realtime", Some 2)]);
  (* include/osmocom/ranap/RANAP_RelocationType.h:22-28 *)
  ("RANAP_RelocationType", [("RANAP_RelocationType_ue_not_involved", Some 0); ("RANAP_RelocationType_ue_involved", Some 1)]);
  (* include/osmocom/ranap/RANAP_ReportAmount.h:22-34 *)
  ("RANAP_ReportAmount", [("RANAP_ReportAmount_n1", Some 0); ("RANAP_ReportAmount_n2", Some 1); ("RANAP_ReportAmount_n4", Some 2); ("RANAP_ReportAmount_n8", Some 3); ("RANAP_ReportAmount_n16", Some 4); ("RANAP_ReportAmount_n32", Some 5); ("RANAP_ReportAmount_n64", Some 6); ("RANAP_ReportAmount_infinity", Some 7)]);
  (* include/osmocom/ranap/RANAP_ReportArea.h:22-28 *)
  ("RANAP_ReportArea", [("RANAP_ReportArea_service_area", Some 0); ("RANAP_ReportArea_geographical_area", Some 1)]);
  (* include/osmocom/ranap/RANAP_ReportChangeOfSAI.h:22-27 *)
  ("RANAP_ReportChangeOfSAI", [("RANAP_ReportChangeOfSAI_requested", Some 0)]);
  (* include/osmocom/ranap/RANAP_ReportInterval.h:22-41 *)
  ("RANAP_ReportInterval", [("RANAP_ReportInterval_ms250", Some 0); ("RANAP_ReportInterval_ms500", Some 1); ("RANAP_ReportInterval_ms1000", Some 2); ("RANAP_ReportInterval_ms2000", Some 3); ("RANAP_ReportInterval_ms3000", Some 4); ("RANAP_ReportInterval_ms4000", Some 5); ("RANAP_ReportInterval_ms6000", Some 6); ("RANAP_ReportInterval_ms12000", Some 7); ("RANAP_ReportInterval_ms16000", Some 8); ("RANAP_ReportInterval_ms20000", Some 9); ("RANAP_ReportInterval_ms24000", Some 10); ("RANAP_ReportInterval_ms32000", Some 11); ("RANAP_ReportInterval_ms64000", Some 12); ("RANAP_ReportInterval_ms8000", Some 13); ("RANAP_ReportInterval_ms28000", Some 14)]);
  (* include/osmocom/ranap/RANAP_RequestedLocationRelatedDataType.h:22-34 *)
  ("RANAP_RequestedLocationRelatedDataType", [("RANAP_RequestedLocationRelatedDataType_decipheringKeysUEBasedOTDOA", Some 0); ("RANAP_RequestedLocationRelatedDataType_decipheringKeysAssistedGPS", Some 1); ("RANAP_RequestedLocationRelatedDataType_dedicatedAssistanceDataUEBasedOTDOA", Some 2); ("RANAP_RequestedLocationRelatedDataType_dedicatedAssistanceDataAssistedGPS", Some 3); ("RANAP_RequestedLocationRelatedDataType_decipheringKeysAssistedGANSS", Some 4); ("RANAP_RequestedLocationRelatedDataType_dedicatedAssistanceDataAssistedGANSS", Some 5); ("RANAP_RequestedLocationRelatedDataType_decipheringKeysAssistedGPSandGANSS", Some 6); ("RANAP_RequestedLocationRelatedDataType_dedicatedAssistanceDataAssistedGPSandGANSS", Some 7)]);
  (* include/osmocom/ranap/RANAP_ResponseTime.h:22-28 *)
  ("RANAP_ResponseTime", [("RANAP_ResponseTime_lowdelay", Some 0); ("RANAP_ResponseTime_delaytolerant", Some 1)]);
  (* include/osmocom/ranap/RANAP_SAPI.h:22-28 *)
  ("RANAP_SAPI", [("RANAP_SAPI_sapi_0", Some 0); ("RANAP_SAPI_sapi_3", Some 1)]);
  (* include/osmocom/ranap/RANAP_SRVCC-HO-Indication.h:22-28 *)
  ("RANAP_SRVCC_HO_Indication", [("RANAP_SRVCC_HO_Indication_ps_and_cs", Some 0); ("RANAP_SRVCC_HO_Indication_cs_only", Some 1)]);
  (* include/osmocom/ranap/RANAP_SRVCC-Operation-Possible.h:22-27 *)
  ("RANAP_SRVCC_Operation_Possible", [("RANAP_SRVCC_Operation_Possible_srvcc_possible", Some 0)]);
  (* include/osmocom/ranap/RANAP_Service-Handover.h:22-29 *)
  ("RANAP_Service_Handover", [("RANAP_Service_Handover_handover_to_GSM_should_be_performed", Some 0); ("RANAP_Service_Handover_handover_to_GSM_should_not_be_performed", Some 1); ("RANAP_Service_Handover_handover_to_GSM_shall_not_be_performed", Some 2)]);
  (* include/osmocom/ranap/RANAP_Session-Re-establishment-Indicator.h:22-27 *)
  ("RANAP_Session_Re_establishment_Indicator", [("RANAP_Session_Re_establishment_Indicator_true", Some 0)]);
  (* include/osmocom/ranap/RANAP_SignallingIndication.h:22-27 *)
  ("RANAP_SignallingIndication", [("RANAP_SignallingIndication_signalling", Some 0)]);
  (* include/osmocom/ranap/RANAP_SourceCellID.h:24-30 *)
  ("RANAP_SourceCellID_PR", [("RANAP_SourceCellID_PR_NOTHING", None); ("RANAP_SourceCellID_PR_sourceUTRANCellID", None); ("RANAP_SourceCellID_PR_sourceGERANCellID", None)]);
  (* include/osmocom/ranap/RANAP_SourceID.h:24-30 *)
  ("RANAP_SourceID_PR", [("RANAP_SourceID_PR_NOTHING", None); ("RANAP_SourceID_PR_sourceRNC_ID", None); ("RANAP_SourceID_PR_sAI", None)]);
  (* include/osmocom/ranap/RANAP_SourceStatisticsDescriptor.h:22-28 *)
  ("RANAP_SourceStatisticsDescriptor", [("RANAP_SourceStatisticsDescriptor_speech", Some 0); ("RANAP_SourceStatisticsDescriptor_unknown", Some 1)]);
  (* include/osmocom/ranap/RANAP_TargetID.h:25-31 *)
  ("RANAP_TargetID_PR", [("RANAP_TargetID_PR_NOTHING", None); ("RANAP_TargetID_PR_targetRNC_ID", None); ("RANAP_TargetID_PR_cGI", None); ("RANAP_TargetID_PR_targeteNB_ID", None)]);
  (* include/osmocom/ranap/RANAP_TemporaryUE-ID.h:24-30 *)
  ("RANAP_TemporaryUE_ID_PR", [("RANAP_TemporaryUE_ID_PR_NOTHING", None); ("RANAP_TemporaryUE_ID_PR_tMSI", None); ("RANAP_TemporaryUE_ID_PR_p_TMSI", None)]);
  (* include/osmocom/ranap/RANAP_TraceDepth.h:22-29 *)
  ("RANAP_TraceDepth", [("RANAP_TraceDepth_minimum", Some 0); ("RANAP_TraceDepth_medium", Some 1); ("RANAP_TraceDepth_maximum", Some 2)]);
  (* include/osmocom/ranap/RANAP_TrafficClass.h:22-30 *)
  ("RANAP_TrafficClass", [("RANAP_TrafficClass_conversational", Some 0); ("RANAP_TrafficClass_streaming", Some 1); ("RANAP_TrafficClass_interactive", Some 2); ("RANAP_TrafficClass_background", Some 3)]);
  (* include/osmocom/ranap/RANAP_TrafficHandlingPriority.h:22-27 *)
  ("RANAP_TrafficHandlingPriority", [("RANAP_TrafficHandlingPriority_spare", Some 0); ("RANAP_TrafficHandlingPriority_highest", Some 1); ("RANAP_TrafficHandlingPriority_lowest", Some 14); ("RANAP_TrafficHandlingPriority_no_priority_used", Some 15)]);
  (* include/osmocom/ranap/RANAP_TriggeringMessage.h:22-27 *)
  ("RANAP_TriggeringMessage", [("RANAP_TriggeringMessage_initiating_message", Some 0); ("RANAP_TriggeringMessage_successful_outcome", Some 1); ("RANAP_TriggeringMessage_unsuccessfull_outcome", Some 2); ("RANAP_TriggeringMessage_outcome", Some 3)]);
  (* include/osmocom/ranap/RANAP_TypeOfError.h:22-28 *)
  ("RANAP_TypeOfError", [("RANAP_TypeOfError_not_understood", Some 0); ("RANAP_TypeOfError_missing", Some 1)]);
  (* include/osmocom/ranap/RANAP_UE-ID.h:25-31 *)
  ("RANAP_UE_ID_PR", [("RANAP_UE_ID_PR_NOTHING", None); ("RANAP_UE_ID_PR_imsi", None); ("RANAP_UE_ID_PR_imei", None); ("RANAP_UE_ID_PR_imeisv", None)]);
  (* include/osmocom/ranap/RANAP_UserPlaneMode.h:22-28 *)
  ("RANAP_UserPlaneMode", [("RANAP_UserPlaneMode_transparent_mode", Some 0); ("RANAP_UserPlaneMode_support_mode_for_predefined_SDU_sizes", Some 1)]);
  (* include/osmocom/ranap/RANAP_VelocityEstimate.h:26-34 *)
  ("RANAP_VelocityEstimate_PR", [("RANAP_VelocityEstimate_PR_NOTHING", None); ("RANAP_VelocityEstimate_PR_horizontalVelocity", None); ("RANAP_VelocityEstimate_PR_horizontalWithVerticalVelocity", None); ("RANAP_VelocityEstimate_PR_horizontalVelocityWithUncertainty", None); ("RANAP_VelocityEstimate_PR_horizontalWithVeritcalVelocityAndUncertainty", None)]);
  (* include/osmocom/ranap/RANAP_VerticalSpeedDirection.h:22-25 *)
  ("RANAP_VerticalSpeedDirection", [("RANAP_VerticalSpeedDirection_upward", Some 0); ("RANAP_VerticalSpeedDirection_downward", Some 1)]);
  (* include/osmocom/ranap/RANAP_VoiceSupportMatchIndicator.h:22-28 *)
  ("RANAP_VoiceSupportMatchIndicator", [("RANAP_VoiceSupportMatchIndicator_supported", Some 0); ("RANAP_VoiceSupportMatchIndicator_not_supported", Some 1)]) ].

Definition ranap_typedefs : list (string * ctype) := [
  (* include/osmocom/ranap/RANAP_APN.h:22-22 *)
  ("RANAP_APN_t", CName "OCTET_STRING_t");
  (* include/osmocom/ranap/RANAP_AccuracyFulfilmentIndicator.h:31-31 *)
  ("RANAP_AccuracyFulfilmentIndicator_t", CName "long");
  (* include/osmocom/ranap/RANAP_AllocationOrRetentionPriority.h:27-40 *)
  ("RANAP_AllocationOrRetentionPriority_t", CStruct "RANAP_AllocationOrRetentionPriority");
  (* include/osmocom/ranap/RANAP_Alt-RAB-Parameter-ExtendedGuaranteedBitrateInf.h:24-34 *)
  ("RANAP_Alt_RAB_Parameter_ExtendedGuaranteedBitrateInf_t", CStruct "RANAP_Alt_RAB_Parameter_ExtendedGuaranteedBitrateInf");
  (* include/osmocom/ranap/RANAP_Alt-RAB-Parameter-ExtendedGuaranteedBitrateList.h:24-29 *)
  ("RANAP_Alt_RAB_Parameter_ExtendedGuaranteedBitrateList_t", CStruct "RANAP_Alt_RAB_Parameter_ExtendedGuaranteedBitrateList");
  (* include/osmocom/ranap/RANAP_Alt-RAB-Parameter-ExtendedGuaranteedBitrates.h:24-29 *)
  ("RANAP_Alt_RAB_Parameter_ExtendedGuaranteedBitrates_t", CStruct "RANAP_Alt_RAB_Parameter_ExtendedGuaranteedBitrates");
  (* include/osmocom/ranap/RANAP_Alt-RAB-Parameter-ExtendedMaxBitrateInf.h:24-34 *)
  ("RANAP_Alt_RAB_Parameter_ExtendedMaxBitrateInf_t", CStruct "RANAP_Alt_RAB_Parameter_ExtendedMaxBitrateInf");
  (* include/osmocom/ranap/RANAP_Alt-RAB-Parameter-ExtendedMaxBitrateList.h:24-29 *)
  ("RANAP_Alt_RAB_Parameter_ExtendedMaxBitrateList_t", CStruct "RANAP_Alt_RAB_Parameter_ExtendedMaxBitrateList");
  (* include/osmocom/ranap/RANAP_Alt-RAB-Parameter-ExtendedMaxBitrates.h:24-29 *)
  ("RANAP_Alt_RAB_Parameter_ExtendedMaxBitrates_t", CStruct "RANAP_Alt_RAB_Parameter_ExtendedMaxBitrates");
  (* include/osmocom/ranap/RANAP_Alt-RAB-Parameter-GuaranteedBitrateInf.h:24-34 *)
  ("RANAP_Alt_RAB_Parameter_GuaranteedBitrateInf_t", CStruct "RANAP_Alt_RAB_Parameter_GuaranteedBitrateInf");
  (* include/osmocom/ranap/RANAP_Alt-RAB-Parameter-GuaranteedBitrateList.h:24-29 *)
  ("RANAP_Alt_RAB_Parameter_GuaranteedBitrateList_t", CStruct "RANAP_Alt_RAB_Parameter_GuaranteedBitrateList");
  (* include/osmocom/ranap/RANAP_Alt-RAB-Parameter-GuaranteedBitrateType.h:32-32 *)
  ("RANAP_Alt_RAB_Parameter_GuaranteedBitrateType_t", CName "long");
  (* include/osmocom/ranap/RANAP_Alt-RAB-Parameter-GuaranteedBitrates.h:24-29 *)
  ("RANAP_Alt_RAB_Parameter_GuaranteedBitrates_t", CStruct "RANAP_Alt_RAB_Parameter_GuaranteedBitrates");
  (* include/osmocom/ranap/RANAP_Alt-RAB-Parameter-MaxBitrateInf.h:24-34 *)
  ("RANAP_Alt_RAB_Parameter_MaxBitrateInf_t", CStruct "RANAP_Alt_RAB_Parameter_MaxBitrateInf");
  (* include/osmocom/ranap/RANAP_Alt-RAB-Parameter-MaxBitrateList.h:24-29 *)
  ("RANAP_Alt_RAB_Parameter_MaxBitrateList_t", CStruct "RANAP_Alt_RAB_Parameter_MaxBitrateList");
  (* include/osmocom/ranap/RANAP_Alt-RAB-Parameter-MaxBitrateType.h:32-32 *)
  ("RANAP_Alt_RAB_Parameter_MaxBitrateType_t", CName "long");
  (* include/osmocom/ranap/RANAP_Alt-RAB-Parameter-MaxBitrates.h:24-29 *)
  ("RANAP_Alt_RAB_Parameter_MaxBitrates_t", CStruct "RANAP_Alt_RAB_Parameter_MaxBitrates");
  (* include/osmocom/ranap/RANAP_Alt-RAB-Parameter-SupportedGuaranteedBitrateInf.h:25-36 *)
  ("RANAP_Alt_RAB_Parameter_SupportedGuaranteedBitrateInf_t", CStruct "RANAP_Alt_RAB_Parameter_SupportedGuaranteedBitrateInf");
  (* include/osmocom/ranap/RANAP_Alt-RAB-Parameter-SupportedGuaranteedBitrates.h:24-29 *)
  ("RANAP_Alt_RAB_Parameter_SupportedGuaranteedBitrates_t", CStruct "RANAP_Alt_RAB_Parameter_SupportedGuaranteedBitrates");
  (* include/osmocom/ranap/RANAP_Alt-RAB-Parameter-SupportedMaxBitrateInf.h:25-36 *)
  ("RANAP_Alt_RAB_Parameter_SupportedMaxBitrateInf_t", CStruct "RANAP_Alt_RAB_Parameter_SupportedMaxBitrateInf");
  (* include/osmocom/ranap/RANAP_Alt-RAB-Parameter-SupportedMaxBitrates.h:24-29 *)
  ("RANAP_Alt_RAB_Parameter_SupportedMaxBitrates_t", CStruct "RANAP_Alt_RAB_Parameter_SupportedMaxBitrates");
  (* include/osmocom/ranap/RANAP_Alt-RAB-Parameters.h:25-36 *)
  ("RANAP_Alt_RAB_Parameters_t", CStruct "RANAP_Alt_RAB_Parameters");
  (* include/osmocom/ranap/RANAP_AlternativeRABConfigurationRequest.h:30-30 *)
  ("RANAP_AlternativeRABConfigurationRequest_t", CName "long");
  (* include/osmocom/ranap/RANAP_AreaIdentity.h:33-46 *)
  ("RANAP_AreaIdentity_t", CStruct "RANAP_AreaIdentity");
  (* include/osmocom/ranap/RANAP_Ass-RAB-Parameter-ExtendedGuaranteedBitrateList.h:24-29 *)
  ("RANAP_Ass_RAB_Parameter_ExtendedGuaranteedBitrateList_t", CStruct "RANAP_Ass_RAB_Parameter_ExtendedGuaranteedBitrateList");
  (* include/osmocom/ranap/RANAP_Ass-RAB-Parameter-ExtendedMaxBitrateList.h:24-29 *)
  ("RANAP_Ass_RAB_Parameter_ExtendedMaxBitrateList_t", CStruct "RANAP_Ass_RAB_Parameter_ExtendedMaxBitrateList");
  (* include/osmocom/ranap/RANAP_Ass-RAB-Parameter-GuaranteedBitrateList.h:24-29 *)
  ("RANAP_Ass_RAB_Parameter_GuaranteedBitrateList_t", CStruct "RANAP_Ass_RAB_Parameter_GuaranteedBitrateList");
  (* include/osmocom/ranap/RANAP_Ass-RAB-Parameter-MaxBitrateList.h:24-29 *)
  ("RANAP_Ass_RAB_Parameter_MaxBitrateList_t", CStruct "RANAP_Ass_RAB_Parameter_MaxBitrateList");
  (* include/osmocom/ranap/RANAP_Ass-RAB-Parameters.h:25-36 *)
  ("RANAP_Ass_RAB_Parameters_t", CStruct "RANAP_Ass_RAB_Parameters");
  (* include/osmocom/ranap/RANAP_AuthorisedPLMNs-Value.h:25-36 *)
  ("RANAP_AuthorisedPLMNs_Value_t", CStruct "RANAP_AuthorisedPLMNs_Value");
  (* include/osmocom/ranap/RANAP_AuthorisedPLMNs.h:24-29 *)
  ("RANAP_AuthorisedPLMNs_t", CStruct "RANAP_AuthorisedPLMNs");
  (* include/osmocom/ranap/RANAP_AuthorisedSNAs.h:24-29 *)
  ("RANAP_AuthorisedSNAs_t", CStruct "RANAP_AuthorisedSNAs");
  (* include/osmocom/ranap/RANAP_BindingID.h:22-22 *)
  ("RANAP_BindingID_t", CName "OCTET_STRING_t");
  (* include/osmocom/ranap/RANAP_BroadcastAssistanceDataDecipheringKeys.h:23-34 *)
  ("RANAP_BroadcastAssistanceDataDecipheringKeys_t", CStruct "RANAP_BroadcastAssistanceDataDecipheringKeys");
  (* include/osmocom/ranap/RANAP_CGI.h:26-34 *)
  ("RANAP_CGI_t", CStruct "RANAP_CGI");
  (* include/osmocom/ranap/RANAP_CI.h:22-22 *)
  ("RANAP_CI_t", CName "OCTET_STRING_t");
  (* include/osmocom/ranap/RANAP_CN-DeactivateTrace.h:25-39 *)
  ("RANAP_CN_DeactivateTrace_t", CStruct "RANAP_CN_DeactivateTrace");
  (* include/osmocom/ranap/RANAP_CN-DomainIndicator.h:28-28 *)
  ("RANAP_CN_DomainIndicator_t", CName "long");
  (* include/osmocom/ranap/RANAP_CN-ID.h:22-22 *)
  ("RANAP_CN_ID_t", CName "long");
  (* include/osmocom/ranap/RANAP_CN-InvokeTrace.h:25-39 *)
  ("RANAP_CN_InvokeTrace_t", CStruct "RANAP_CN_InvokeTrace");
  (* include/osmocom/ranap/RANAP_CNMBMSLinkingInformation.h:24-34 *)
  ("RANAP_CNMBMSLinkingInformation_t", CStruct "RANAP_CNMBMSLinkingInformation");
  (* include/osmocom/ranap/RANAP_CSFB-Information.h:31-31 *)
  ("RANAP_CSFB_Information_t", CName "long");
  (* include/osmocom/ranap/RANAP_CSG-Id-List.h:24-29 *)
  ("RANAP_CSG_Id_List_t", CStruct "RANAP_CSG_Id_List");
  (* include/osmocom/ranap/RANAP_CSG-Id.h:22-22 *)
  ("RANAP_CSG_Id_t", CName "BIT_STRING_t");
  (* include/osmocom/ranap/RANAP_CSG-Membership-Status.h:31-31 *)
  ("RANAP_CSG_Membership_Status_t", CName "long");
  (* include/osmocom/ranap/RANAP_Cause.h:42-60 *)
  ("RANAP_Cause_t", CStruct "RANAP_Cause");
  (* include/osmocom/ranap/RANAP_CauseMisc.h:30-30 *)
  ("RANAP_CauseMisc_t", CName "long");
  (* include/osmocom/ranap/RANAP_CauseNAS.h:30-30 *)
  ("RANAP_CauseNAS_t", CName "long");
  (* include/osmocom/ranap/RANAP_CauseNon-Standard.h:22-22 *)
  ("RANAP_CauseNon_Standard_t", CName "long");
  (* include/osmocom/ranap/RANAP_CauseProtocol.h:32-32 *)
  ("RANAP_CauseProtocol_t", CName "long");
  (* include/osmocom/ranap/RANAP_CauseRadioNetwork.h:90-90 *)
  ("RANAP_CauseRadioNetwork_t", CName "long");
  (* include/osmocom/ranap/RANAP_CauseRadioNetworkExtension.h:39-39 *)
  ("RANAP_CauseRadioNetworkExtension_t", CName "long");
  (* include/osmocom/ranap/RANAP_CauseTransmissionNetwork.h:28-28 *)
  ("RANAP_CauseTransmissionNetwork_t", CName "long");
  (* include/osmocom/ranap/RANAP_Cell-Access-Mode.h:30-30 *)
  ("RANAP_Cell_Access_Mode_t", CName "long");
  (* include/osmocom/ranap/RANAP_Cell-Capacity-Class-Value.h:22-22 *)
  ("RANAP_Cell_Capacity_Class_Value_t", CName "long");
  (* include/osmocom/ranap/RANAP_Cell-Id.h:22-22 *)
  ("RANAP_Cell_Id_t", CName "long");
  (* include/osmocom/ranap/RANAP_CellBased.h:24-34 *)
  ("RANAP_CellBased_t", CStruct "RANAP_CellBased");
  (* include/osmocom/ranap/RANAP_CellIdList.h:24-29 *)
  ("RANAP_CellIdList_t", CStruct "RANAP_CellIdList");
  (* include/osmocom/ranap/RANAP_CellLoadInformation.h:27-40 *)
  ("RANAP_CellLoadInformation_t", CStruct "RANAP_CellLoadInformation");
  (* include/osmocom/ranap/RANAP_CellLoadInformationGroup.h:25-37 *)
  ("RANAP_CellLoadInformationGroup_t", CStruct "RANAP_CellLoadInformationGroup");
  (* include/osmocom/ranap/RANAP_CellType.h:33-33 *)
  ("RANAP_CellType_t", CName "long");
  (* include/osmocom/ranap/RANAP_ChosenEncryptionAlgorithm.h:23-23 *)
  ("RANAP_ChosenEncryptionAlgorithm_t", CName "RANAP_EncryptionAlgorithm_t");
  (* include/osmocom/ranap/RANAP_ChosenIntegrityProtectionAlgorithm.h:23-23 *)
  ("RANAP_ChosenIntegrityProtectionAlgorithm_t", CName "RANAP_IntegrityProtectionAlgorithm_t");
  (* include/osmocom/ranap/RANAP_ClassmarkInformation2.h:22-22 *)
  ("RANAP_ClassmarkInformation2_t", CName "OCTET_STRING_t");
  (* include/osmocom/ranap/RANAP_ClassmarkInformation3.h:22-22 *)
  ("RANAP_ClassmarkInformation3_t", CName "OCTET_STRING_t");
  (* include/osmocom/ranap/RANAP_ClientType.h:37-37 *)
  ("RANAP_ClientType_t", CName "long");
  (* include/osmocom/ranap/RANAP_CommonID.h:25-39 *)
  ("RANAP_CommonID_t", CStruct "RANAP_CommonID");
  (* include/osmocom/ranap/RANAP_Correlation-ID.h:22-22 *)
  ("RANAP_Correlation_ID_t", CName "OCTET_STRING_t");
  (* include/osmocom/ranap/RANAP_Criticality.h:29-29 *)
  ("RANAP_Criticality_t", CName "long");
  (* include/osmocom/ranap/RANAP_CriticalityDiagnostics-IE-List-Value.h:26-38 *)
  ("RANAP_CriticalityDiagnostics_IE_List_Value_t", CStruct "RANAP_CriticalityDiagnostics_IE_List_Value");
  (* include/osmocom/ranap/RANAP_CriticalityDiagnostics-IE-List.h:24-29 *)
  ("RANAP_CriticalityDiagnostics_IE_List_t", CStruct "RANAP_CriticalityDiagnostics_IE_List");
  (* include/osmocom/ranap/RANAP_CriticalityDiagnostics.h:27-40 *)
  ("RANAP_CriticalityDiagnostics_t", CStruct "RANAP_CriticalityDiagnostics");
  (* include/osmocom/ranap/RANAP_D-RNTI.h:22-22 *)
  ("RANAP_D_RNTI_t", CName "long");
  (* include/osmocom/ranap/RANAP_DCH-ID.h:22-22 *)
  ("RANAP_DCH_ID_t", CName "long");
  (* include/osmocom/ranap/RANAP_DL-GTP-PDU-SequenceNumber.h:22-22 *)
  ("RANAP_DL_GTP_PDU_SequenceNumber_t", CName "long");
  (* include/osmocom/ranap/RANAP_DL-N-PDU-SequenceNumber.h:22-22 *)
  ("RANAP_DL_N_PDU_SequenceNumber_t", CName "long");
  (* include/osmocom/ranap/RANAP_DRX-CycleLengthCoefficient.h:22-22 *)
  ("RANAP_DRX_CycleLengthCoefficient_t", CName "long");
  (* include/osmocom/ranap/RANAP_DSCH-ID.h:22-22 *)
  ("RANAP_DSCH_ID_t", CName "long");
  (* include/osmocom/ranap/RANAP_DataPDUType.h:31-31 *)
  ("RANAP_DataPDUType_t", CName "long");
  (* include/osmocom/ranap/RANAP_DataVolumeList-Value.h:25-36 *)
  ("RANAP_DataVolumeList_Value_t", CStruct "RANAP_DataVolumeList_Value");
  (* include/osmocom/ranap/RANAP_DataVolumeList.h:24-29 *)
  ("RANAP_DataVolumeList_t", CStruct "RANAP_DataVolumeList");
  (* include/osmocom/ranap/RANAP_DataVolumeReference.h:22-22 *)
  ("RANAP_DataVolumeReference_t", CName "long");
  (* include/osmocom/ranap/RANAP_DataVolumeReport.h:25-39 *)
  ("RANAP_DataVolumeReport_t", CStruct "RANAP_DataVolumeReport");
  (* include/osmocom/ranap/RANAP_DataVolumeReportList.h:25-39 *)
  ("RANAP_DataVolumeReportList_t", CStruct "RANAP_DataVolumeReportList");
  (* include/osmocom/ranap/RANAP_DataVolumeReportRequest.h:25-39 *)
  ("RANAP_DataVolumeReportRequest_t", CStruct "RANAP_DataVolumeReportRequest");
  (* include/osmocom/ranap/RANAP_DataVolumeReportingIndication.h:28-28 *)
  ("RANAP_DataVolumeReportingIndication_t", CName "long");
  (* include/osmocom/ranap/RANAP_DeliveryOfErroneousSDU.h:29-29 *)
  ("RANAP_DeliveryOfErroneousSDU_t", CName "long");
  (* include/osmocom/ranap/RANAP_DeliveryOrder.h:28-28 *)
  ("RANAP_DeliveryOrder_t", CName "long");
  (* include/osmocom/ranap/RANAP_DeltaRAListofIdleModeUEs.h:25-32 *)
  ("RANAP_DeltaRAListofIdleModeUEs_t", CStruct "RANAP_DeltaRAListofIdleModeUEs");
  (* include/osmocom/ranap/RANAP_DirectInformationTransfer.h:25-39 *)
  ("RANAP_DirectInformationTransfer_t", CStruct "RANAP_DirectInformationTransfer");
  (* include/osmocom/ranap/RANAP_DirectReportingIndicator.h:31-31 *)
  ("RANAP_DirectReportingIndicator_t", CName "long");
  (* include/osmocom/ranap/RANAP_DirectTransfer-IE-ContainerList.h:24-29 *)
  ("RANAP_DirectTransfer_IE_ContainerList_t", CStruct "RANAP_DirectTransfer_IE_ContainerList");
  (* include/osmocom/ranap/RANAP_DirectTransfer.h:25-39 *)
  ("RANAP_DirectTransfer_t", CStruct "RANAP_DirectTransfer");
  (* include/osmocom/ranap/RANAP_DirectTransferInformationItem-RANAP-RelocInf.h:26-38 *)
  ("RANAP_DirectTransferInformationItem_RANAP_RelocInf_t", CStruct "RANAP_DirectTransferInformationItem_RANAP_RelocInf");
  (* include/osmocom/ranap/RANAP_E-DCH-MAC-d-Flow-ID.h:22-22 *)
  ("RANAP_E_DCH_MAC_d_Flow_ID_t", CName "long");
  (* include/osmocom/ranap/RANAP_E-UTRAN-Service-Handover.h:30-30 *)
  ("RANAP_E_UTRAN_Service_Handover_t", CName "long");
  (* include/osmocom/ranap/RANAP_EARFCN-Extended.h:22-22 *)
  ("RANAP_EARFCN_Extended_t", CName "long");
  (* include/osmocom/ranap/RANAP_ENB-ID.h:32-45 *)
  ("RANAP_ENB_ID_t", CStruct "RANAP_ENB_ID");
  (* include/osmocom/ranap/RANAP_EUTRANFrequencies-Value.h:25-32 *)
  ("RANAP_EUTRANFrequencies_Value_t", CStruct "RANAP_EUTRANFrequencies_Value");
  (* include/osmocom/ranap/RANAP_EUTRANFrequencies.h:24-29 *)
  ("RANAP_EUTRANFrequencies_t", CStruct "RANAP_EUTRANFrequencies");
  (* include/osmocom/ranap/RANAP_EncryptionAlgorithm.h:29-29 *)
  ("RANAP_EncryptionAlgorithm_t", CName "long");
  (* include/osmocom/ranap/RANAP_EncryptionInformation.h:25-32 *)
  ("RANAP_EncryptionInformation_t", CStruct "RANAP_EncryptionInformation");
  (* include/osmocom/ranap/RANAP_EncryptionKey.h:22-22 *)
  ("RANAP_EncryptionKey_t", CName "BIT_STRING_t");
  (* include/osmocom/ranap/RANAP_End-Of-CSFB.h:30-30 *)
  ("RANAP_End_Of_CSFB_t", CName "long");
  (* include/osmocom/ranap/RANAP_EnhancedRelocationCompleteConfirm.h:25-39 *)
  ("RANAP_EnhancedRelocationCompleteConfirm_t", CStruct "RANAP_EnhancedRelocationCompleteConfirm");
  (* include/osmocom/ranap/RANAP_EnhancedRelocationCompleteFailure.h:25-39 *)
  ("RANAP_EnhancedRelocationCompleteFailure_t", CStruct "RANAP_EnhancedRelocationCompleteFailure");
  (* include/osmocom/ranap/RANAP_EnhancedRelocationCompleteRequest.h:25-39 *)
  ("RANAP_EnhancedRelocationCompleteRequest_t", CStruct "RANAP_EnhancedRelocationCompleteRequest");
  (* include/osmocom/ranap/RANAP_EnhancedRelocationCompleteResponse.h:25-39 *)
  ("RANAP_EnhancedRelocationCompleteResponse_t", CStruct "RANAP_EnhancedRelocationCompleteResponse");
  (* include/osmocom/ranap/RANAP_EquipmentsToBeTraced.h:37-52 *)
  ("RANAP_EquipmentsToBeTraced_t", CStruct "RANAP_EquipmentsToBeTraced");
  (* include/osmocom/ranap/RANAP_ErrorIndication.h:25-39 *)
  ("RANAP_ErrorIndication_t", CStruct "RANAP_ErrorIndication");
  (* include/osmocom/ranap/RANAP_Event.h:35-35 *)
  ("RANAP_Event_t", CName "long");
  (* include/osmocom/ranap/RANAP_Event1F-Parameters.h:24-34 *)
  ("RANAP_Event1F_Parameters_t", CStruct "RANAP_Event1F_Parameters");
  (* include/osmocom/ranap/RANAP_Event1I-Parameters.h:23-32 *)
  ("RANAP_Event1I_Parameters_t", CStruct "RANAP_Event1I_Parameters");
  (* include/osmocom/ranap/RANAP_ExtendedGuaranteedBitrate.h:22-22 *)
  ("RANAP_ExtendedGuaranteedBitrate_t", CName "long");
  (* include/osmocom/ranap/RANAP_ExtendedMaxBitrate.h:22-22 *)
  ("RANAP_ExtendedMaxBitrate_t", CName "long");
  (* include/osmocom/ranap/RANAP_ExtendedRNC-ID.h:22-22 *)
  ("RANAP_ExtendedRNC_ID_t", CName "long");
  (* include/osmocom/ranap/RANAP_ForwardSRNS-Context.h:25-39 *)
  ("RANAP_ForwardSRNS_Context_t", CStruct "RANAP_ForwardSRNS_Context");
  (* include/osmocom/ranap/RANAP_ForwardingIndication.h:30-30 *)
  ("RANAP_ForwardingIndication_t", CName "long");
  (* include/osmocom/ranap/RANAP_FrameSequenceNumber.h:22-22 *)
  ("RANAP_FrameSequenceNumber_t", CName "long");
  (* include/osmocom/ranap/RANAP_FrequenceLayerConvergenceFlag.h:30-30 *)
  ("RANAP_FrequenceLayerConvergenceFlag_t", CName "long");
  (* include/osmocom/ranap/RANAP_GA-AltitudeAndDirection.h:30-40 *)
  ("RANAP_GA_AltitudeAndDirection_t", CStruct "RANAP_GA_AltitudeAndDirection");
  (* include/osmocom/ranap/RANAP_GA-EllipsoidArc.h:25-40 *)
  ("RANAP_GA_EllipsoidArc_t", CStruct "RANAP_GA_EllipsoidArc");
  (* include/osmocom/ranap/RANAP_GA-Point.h:24-34 *)
  ("RANAP_GA_Point_t", CStruct "RANAP_GA_Point");
  (* include/osmocom/ranap/RANAP_GA-PointWithAltitude.h:25-36 *)
  ("RANAP_GA_PointWithAltitude_t", CStruct "RANAP_GA_PointWithAltitude");
  (* include/osmocom/ranap/RANAP_GA-PointWithAltitudeAndUncertaintyEllipsoid.h:27-41 *)
  ("RANAP_GA_PointWithAltitudeAndUncertaintyEllipsoid_t", CStruct "RANAP_GA_PointWithAltitudeAndUncertaintyEllipsoid");
  (* include/osmocom/ranap/RANAP_GA-PointWithUnCertainty.h:25-32 *)
  ("RANAP_GA_PointWithUnCertainty_t", CStruct "RANAP_GA_PointWithUnCertainty");
  (* include/osmocom/ranap/RANAP_GA-PointWithUnCertaintyEllipse.h:26-38 *)
  ("RANAP_GA_PointWithUnCertaintyEllipse_t", CStruct "RANAP_GA_PointWithUnCertaintyEllipse");
  (* include/osmocom/ranap/RANAP_GA-Polygon-Value.h:24-34 *)
  ("RANAP_GA_Polygon_Value_t", CStruct "RANAP_GA_Polygon_Value");
  (* include/osmocom/ranap/RANAP_GA-Polygon.h:24-29 *)
  ("RANAP_GA_Polygon_t", CStruct "RANAP_GA_Polygon");
  (* include/osmocom/ranap/RANAP_GA-UncertaintyEllipse.h:23-34 *)
  ("RANAP_GA_UncertaintyEllipse_t", CStruct "RANAP_GA_UncertaintyEllipse");
  (* include/osmocom/ranap/RANAP_GANSS-PositioningDataSet.h:24-29 *)
  ("RANAP_GANSS_PositioningDataSet_t", CStruct "RANAP_GANSS_PositioningDataSet");
  (* include/osmocom/ranap/RANAP_GANSS-PositioningMethodAndUsage.h:22-22 *)
  ("RANAP_GANSS_PositioningMethodAndUsage_t", CName "OCTET_STRING_t");
  (* include/osmocom/ranap/RANAP_GERAN-BSC-Container.h:22-22 *)
  ("RANAP_GERAN_BSC_Container_t", CName "OCTET_STRING_t");
  (* include/osmocom/ranap/RANAP_GERAN-Cell-ID.h:26-34 *)
  ("RANAP_GERAN_Cell_ID_t", CStruct "RANAP_GERAN_Cell_ID");
  (* include/osmocom/ranap/RANAP_GERAN-Classmark.h:22-22 *)
  ("RANAP_GERAN_Classmark_t", CName "OCTET_STRING_t");
  (* include/osmocom/ranap/RANAP_GERAN-Iumode-RAB-Failed-RABAssgntResponse-Item.h:26-38 *)
  ("RANAP_GERAN_Iumode_RAB_Failed_RABAssgntResponse_Item_t", CStruct "RANAP_GERAN_Iumode_RAB_Failed_RABAssgntResponse_Item");
  (* include/osmocom/ranap/RANAP_GERAN-Iumode-RAB-Failed-RABAssgntResponse-List.h:25-39 *)
  ("RANAP_GERAN_Iumode_RAB_Failed_RABAssgntResponse_List_t", CStruct "RANAP_GERAN_Iumode_RAB_Failed_RABAssgntResponse_List");
  (* include/osmocom/ranap/RANAP_GTP-TEI.h:22-22 *)
  ("RANAP_GTP_TEI_t", CName "OCTET_STRING_t");
  (* include/osmocom/ranap/RANAP_GeographicalArea.h:42-60 *)
  ("RANAP_GeographicalArea_t", CStruct "RANAP_GeographicalArea");
  (* include/osmocom/ranap/RANAP_GeographicalCoordinates.h:31-43 *)
  ("RANAP_GeographicalCoordinates_t", CStruct "RANAP_GeographicalCoordinates");
  (* include/osmocom/ranap/RANAP_GlobalCN-ID.h:24-30 *)
  ("RANAP_GlobalCN_ID_t", CStruct "RANAP_GlobalCN_ID");
  (* include/osmocom/ranap/RANAP_GlobalRNC-ID.h:24-30 *)
  ("RANAP_GlobalRNC_ID_t", CStruct "RANAP_GlobalRNC_ID");
  (* include/osmocom/ranap/RANAP_GuaranteedBitrate.h:22-22 *)
  ("RANAP_GuaranteedBitrate_t", CName "long");
  (* include/osmocom/ranap/RANAP_HS-DSCH-MAC-d-Flow-ID.h:22-22 *)
  ("RANAP_HS_DSCH_MAC_d_Flow_ID_t", CName "long");
  (* include/osmocom/ranap/RANAP_HigherBitratesThan16MbpsFlag.h:31-31 *)
  ("RANAP_HigherBitratesThan16MbpsFlag_t", CName "long");
  (* include/osmocom/ranap/RANAP_HorizontalSpeedAndBearing.h:23-29 *)
  ("RANAP_HorizontalSpeedAndBearing_t", CStruct "RANAP_HorizontalSpeedAndBearing");
  (* include/osmocom/ranap/RANAP_HorizontalVelocity.h:24-34 *)
  ("RANAP_HorizontalVelocity_t", CStruct "RANAP_HorizontalVelocity");
  (* include/osmocom/ranap/RANAP_HorizontalVelocityWithUncertainty.h:25-36 *)
  ("RANAP_HorizontalVelocityWithUncertainty_t", CStruct "RANAP_HorizontalVelocityWithUncertainty");
  (* include/osmocom/ranap/RANAP_HorizontalWithVerticalVelocity.h:25-36 *)
  ("RANAP_HorizontalWithVerticalVelocity_t", CStruct "RANAP_HorizontalWithVerticalVelocity");
  (* include/osmocom/ranap/RANAP_HorizontalWithVerticalVelocityAndUncertainty.h:26-39 *)
  ("RANAP_HorizontalWithVerticalVelocityAndUncertainty_t", CStruct "RANAP_HorizontalWithVerticalVelocityAndUncertainty");
  (* include/osmocom/ranap/RANAP_IE-Extensions.h:24-29 *)
  ("RANAP_IE_Extensions_t", CStruct "RANAP_IE_Extensions");
  (* include/osmocom/ranap/RANAP_IE.h:25-32 *)
  ("RANAP_IE_t", CStruct "RANAP_IE");
  (* include/osmocom/ranap/RANAP_IMEI.h:22-22 *)
  ("RANAP_IMEI_t", CName "OCTET_STRING_t");
  (* include/osmocom/ranap/RANAP_IMEIGroup.h:25-32 *)
  ("RANAP_IMEIGroup_t", CStruct "RANAP_IMEIGroup");
  (* include/osmocom/ranap/RANAP_IMEIList.h:24-29 *)
  ("RANAP_IMEIList_t", CStruct "RANAP_IMEIList");
  (* include/osmocom/ranap/RANAP_IMEISV.h:22-22 *)
  ("RANAP_IMEISV_t", CName "OCTET_STRING_t");
  (* include/osmocom/ranap/RANAP_IMEISVGroup.h:25-32 *)
  ("RANAP_IMEISVGroup_t", CStruct "RANAP_IMEISVGroup");
  (* include/osmocom/ranap/RANAP_IMEISVList.h:24-29 *)
  ("RANAP_IMEISVList_t", CStruct "RANAP_IMEISVList");
  (* include/osmocom/ranap/RANAP_IMSI.h:23-23 *)
  ("RANAP_IMSI_t", CName "OCTET_STRING_t");
  (* include/osmocom/ranap/RANAP_IPMulticastAddress.h:22-22 *)
  ("RANAP_IPMulticastAddress_t", CName "OCTET_STRING_t");
  (* include/osmocom/ranap/RANAP_IRAT-Measurement-Configuration.h:25-33 *)
  ("RANAP_IRAT_Measurement_Configuration_t", CStruct "RANAP_IRAT_Measurement_Configuration");
  (* include/osmocom/ranap/RANAP_IRATmeasurementParameters.h:25-32 *)
  ("RANAP_IRATmeasurementParameters_t", CStruct "RANAP_IRATmeasurementParameters");
  (* include/osmocom/ranap/RANAP_ImmediateMDT.h:26-38 *)
  ("RANAP_ImmediateMDT_t", CStruct "RANAP_ImmediateMDT");
  (* include/osmocom/ranap/RANAP_IncludeVelocity.h:27-27 *)
  ("RANAP_IncludeVelocity_t", CName "long");
  (* include/osmocom/ranap/RANAP_InformationExchangeID.h:22-22 *)
  ("RANAP_InformationExchangeID_t", CName "long");
  (* include/osmocom/ranap/RANAP_InformationExchangeType.h:31-31 *)
  ("RANAP_InformationExchangeType_t", CName "long");
  (* include/osmocom/ranap/RANAP_InformationRequestType.h:33-46 *)
  ("RANAP_InformationRequestType_t", CStruct "RANAP_InformationRequestType");
  (* include/osmocom/ranap/RANAP_InformationRequested.h:33-46 *)
  ("RANAP_InformationRequested_t", CStruct "RANAP_InformationRequested");
  (* include/osmocom/ranap/RANAP_InformationTransferConfirmation.h:25-39 *)
  ("RANAP_InformationTransferConfirmation_t", CStruct "RANAP_InformationTransferConfirmation");
  (* include/osmocom/ranap/RANAP_InformationTransferFailure.h:25-39 *)
  ("RANAP_InformationTransferFailure_t", CStruct "RANAP_InformationTransferFailure");
  (* include/osmocom/ranap/RANAP_InformationTransferID.h:22-22 *)
  ("RANAP_InformationTransferID_t", CName "long");
  (* include/osmocom/ranap/RANAP_InformationTransferIndication.h:25-39 *)
  ("RANAP_InformationTransferIndication_t", CStruct "RANAP_InformationTransferIndication");
  (* include/osmocom/ranap/RANAP_InformationTransferType.h:31-43 *)
  ("RANAP_InformationTransferType_t", CStruct "RANAP_InformationTransferType");
  (* include/osmocom/ranap/RANAP_InitialUE-Message.h:25-39 *)
  ("RANAP_InitialUE_Message_t", CStruct "RANAP_InitialUE_Message");
  (* include/osmocom/ranap/RANAP_InitiatingMessage.h:25-32 *)
  ("RANAP_InitiatingMessage_t", CStruct "RANAP_InitiatingMessage");
  (* include/osmocom/ranap/RANAP_IntegrityProtectionAlgorithm.h:29-29 *)
  ("RANAP_IntegrityProtectionAlgorithm_t", CName "long");
  (* include/osmocom/ranap/RANAP_IntegrityProtectionInformation.h:25-32 *)
  ("RANAP_IntegrityProtectionInformation_t", CStruct "RANAP_IntegrityProtectionInformation");
  (* include/osmocom/ranap/RANAP_IntegrityProtectionKey.h:22-22 *)
  ("RANAP_IntegrityProtectionKey_t", CName "BIT_STRING_t");
  (* include/osmocom/ranap/RANAP_InterSystemInformation-TransparentContainer.h:24-35 *)
  ("RANAP_InterSystemInformation_TransparentContainer_t", CStruct "RANAP_InterSystemInformation_TransparentContainer");
  (* include/osmocom/ranap/RANAP_InterSystemInformationTransferType.h:31-43 *)
  ("RANAP_InterSystemInformationTransferType_t", CStruct "RANAP_InterSystemInformationTransferType");
  (* include/osmocom/ranap/RANAP_InterfacesToTraceItem.h:36-46 *)
  ("RANAP_InterfacesToTraceItem_t", CStruct "RANAP_InterfacesToTraceItem");
  (* include/osmocom/ranap/RANAP_Iu-ReleaseCommand.h:25-39 *)
  ("RANAP_Iu_ReleaseCommand_t", CStruct "RANAP_Iu_ReleaseCommand");
  (* include/osmocom/ranap/RANAP_Iu-ReleaseComplete.h:25-39 *)
  ("RANAP_Iu_ReleaseComplete_t", CStruct "RANAP_Iu_ReleaseComplete");
  (* include/osmocom/ranap/RANAP_Iu-ReleaseRequest.h:25-39 *)
  ("RANAP_Iu_ReleaseRequest_t", CStruct "RANAP_Iu_ReleaseRequest");
  (* include/osmocom/ranap/RANAP_IuSigConId-IE-ContainerList.h:24-29 *)
  ("RANAP_IuSigConId_IE_ContainerList_t", CStruct "RANAP_IuSigConId_IE_ContainerList");
  (* include/osmocom/ranap/RANAP_IuSignallingConnectionIdentifier.h:22-22 *)
  ("RANAP_IuSignallingConnectionIdentifier_t", CName "BIT_STRING_t");
  (* include/osmocom/ranap/RANAP_IuTransportAssociation.h:33-46 *)
  ("RANAP_IuTransportAssociation_t", CStruct "RANAP_IuTransportAssociation");
  (* include/osmocom/ranap/RANAP_JoinedMBMSBearerService-IEs-Value.h:25-36 *)
  ("RANAP_JoinedMBMSBearerService_IEs_Value_t", CStruct "RANAP_JoinedMBMSBearerService_IEs_Value");
  (* include/osmocom/ranap/RANAP_JoinedMBMSBearerService-IEs.h:24-29 *)
  ("RANAP_JoinedMBMSBearerService_IEs_t", CStruct "RANAP_JoinedMBMSBearerService_IEs");
  (* include/osmocom/ranap/RANAP_KeyStatus.h:31-31 *)
  ("RANAP_KeyStatus_t", CName "long");
  (* include/osmocom/ranap/RANAP_L3-Information.h:22-22 *)
  ("RANAP_L3_Information_t", CName "OCTET_STRING_t");
  (* include/osmocom/ranap/RANAP_LA-LIST-Value.h:25-36 *)
  ("RANAP_LA_LIST_Value_t", CStruct "RANAP_LA_LIST_Value");
  (* include/osmocom/ranap/RANAP_LA-LIST.h:24-29 *)
  ("RANAP_LA_LIST_t", CStruct "RANAP_LA_LIST");
  (* include/osmocom/ranap/RANAP_LABased.h:24-34 *)
  ("RANAP_LABased_t", CStruct "RANAP_LABased");
  (* include/osmocom/ranap/RANAP_LAC.h:22-22 *)
  ("RANAP_LAC_t", CName "OCTET_STRING_t");
  (* include/osmocom/ranap/RANAP_LAI-List.h:24-29 *)
  ("RANAP_LAI_List_t", CStruct "RANAP_LAI_List");
  (* include/osmocom/ranap/RANAP_LAI.h:25-32 *)
  ("RANAP_LAI_t", CStruct "RANAP_LAI");
  (* include/osmocom/ranap/RANAP_LAListofIdleModeUEs.h:24-29 *)
  ("RANAP_LAListofIdleModeUEs_t", CStruct "RANAP_LAListofIdleModeUEs");
  (* include/osmocom/ranap/RANAP_LHN-ID.h:22-22 *)
  ("RANAP_LHN_ID_t", CName "OCTET_STRING_t");
  (* include/osmocom/ranap/RANAP_LastKnownServiceArea.h:25-36 *)
  ("RANAP_LastKnownServiceArea_t", CStruct "RANAP_LastKnownServiceArea");
  (* include/osmocom/ranap/RANAP_LastVisitedUTRANCell-Item.h:26-38 *)
  ("RANAP_LastVisitedUTRANCell_Item_t", CStruct "RANAP_LastVisitedUTRANCell_Item");
  (* include/osmocom/ranap/RANAP_LeftMBMSBearerService-IEs-Value.h:24-34 *)
  ("RANAP_LeftMBMSBearerService_IEs_Value_t", CStruct "RANAP_LeftMBMSBearerService_IEs_Value");
  (* include/osmocom/ranap/RANAP_LeftMBMSBearerService-IEs.h:24-29 *)
  ("RANAP_LeftMBMSBearerService_IEs_t", CStruct "RANAP_LeftMBMSBearerService_IEs");
  (* include/osmocom/ranap/RANAP_Links-to-log.h:32-32 *)
  ("RANAP_Links_to_log_t", CName "long");
  (* include/osmocom/ranap/RANAP_ListOF-SNAs.h:24-29 *)
  ("RANAP_ListOF_SNAs_t", CStruct "RANAP_ListOF_SNAs");
  (* include/osmocom/ranap/RANAP_ListOfInterfacesToTrace.h:24-29 *)
  ("RANAP_ListOfInterfacesToTrace_t", CStruct "RANAP_ListOfInterfacesToTrace");
  (* include/osmocom/ranap/RANAP_LoadValue.h:22-22 *)
  ("RANAP_LoadValue_t", CName "long");
  (* include/osmocom/ranap/RANAP_LocationRelatedDataFailure.h:25-39 *)
  ("RANAP_LocationRelatedDataFailure_t", CStruct "RANAP_LocationRelatedDataFailure");
  (* include/osmocom/ranap/RANAP_LocationRelatedDataRequest.h:25-39 *)
  ("RANAP_LocationRelatedDataRequest_t", CStruct "RANAP_LocationRelatedDataRequest");
  (* include/osmocom/ranap/RANAP_LocationRelatedDataRequestType.h:24-34 *)
  ("RANAP_LocationRelatedDataRequestType_t", CStruct "RANAP_LocationRelatedDataRequestType");
  (* include/osmocom/ranap/RANAP_LocationRelatedDataRequestTypeSpecificToGERANIuMode.h:32-32 *)
  ("RANAP_LocationRelatedDataRequestTypeSpecificToGERANIuMode_t", CName "long");
  (* include/osmocom/ranap/RANAP_LocationRelatedDataResponse.h:25-39 *)
  ("RANAP_LocationRelatedDataResponse_t", CStruct "RANAP_LocationRelatedDataResponse");
  (* include/osmocom/ranap/RANAP_LocationReport.h:25-39 *)
  ("RANAP_LocationReport_t", CStruct "RANAP_LocationReport");
  (* include/osmocom/ranap/RANAP_LocationReportingControl.h:25-39 *)
  ("RANAP_LocationReportingControl_t", CStruct "RANAP_LocationReportingControl");
  (* include/osmocom/ranap/RANAP_LocationReportingTransferInformation.h:32-52 *)
  ("RANAP_LocationReportingTransferInformation_t", CStruct "RANAP_LocationReportingTransferInformation");
  (* include/osmocom/ranap/RANAP_LoggedMDT.h:25-36 *)
  ("RANAP_LoggedMDT_t", CStruct "RANAP_LoggedMDT");
  (* include/osmocom/ranap/RANAP_LoggingDuration.h:35-35 *)
  ("RANAP_LoggingDuration_t", CName "long");
  (* include/osmocom/ranap/RANAP_LoggingInterval.h:37-37 *)
  ("RANAP_LoggingInterval_t", CName "long");
  (* include/osmocom/ranap/RANAP_M1Report.h:33-46 *)
  ("RANAP_M1Report_t", CStruct "RANAP_M1Report");
  (* include/osmocom/ranap/RANAP_M2Report.h:33-46 *)
  ("RANAP_M2Report_t", CStruct "RANAP_M2Report");
  (* include/osmocom/ranap/RANAP_M4-Collection-Parameters.h:25-36 *)
  ("RANAP_M4_Collection_Parameters_t", CStruct "RANAP_M4_Collection_Parameters");
  (* include/osmocom/ranap/RANAP_M4-Period.h:37-37 *)
  ("RANAP_M4_Period_t", CName "long");
  (* include/osmocom/ranap/RANAP_M4-Threshold.h:22-22 *)
  ("RANAP_M4_Threshold_t", CName "long");
  (* include/osmocom/ranap/RANAP_M4Report.h:33-46 *)
  ("RANAP_M4Report_t", CStruct "RANAP_M4Report");
  (* include/osmocom/ranap/RANAP_M5-Period.h:37-37 *)
  ("RANAP_M5_Period_t", CName "long");
  (* include/osmocom/ranap/RANAP_M5Report.h:33-46 *)
  ("RANAP_M5Report_t", CStruct "RANAP_M5Report");
  (* include/osmocom/ranap/RANAP_M6-Period.h:42-42 *)
  ("RANAP_M6_Period_t", CName "long");
  (* include/osmocom/ranap/RANAP_M6Report.h:25-36 *)
  ("RANAP_M6Report_t", CStruct "RANAP_M6Report");
  (* include/osmocom/ranap/RANAP_M7-Period.h:42-42 *)
  ("RANAP_M7_Period_t", CName "long");
  (* include/osmocom/ranap/RANAP_M7Report.h:25-36 *)
  ("RANAP_M7Report_t", CStruct "RANAP_M7Report");
  (* include/osmocom/ranap/RANAP_MBMS-PTP-RAB-ID.h:22-22 *)
  ("RANAP_MBMS_PTP_RAB_ID_t", CName "BIT_STRING_t");
  (* include/osmocom/ranap/RANAP_MBMSBearerServiceType.h:31-31 *)
  ("RANAP_MBMSBearerServiceType_t", CName "long");
  (* include/osmocom/ranap/RANAP_MBMSCNDe-Registration.h:31-31 *)
  ("RANAP_MBMSCNDe_Registration_t", CName "long");
  (* include/osmocom/ranap/RANAP_MBMSCNDe-RegistrationRequest.h:25-39 *)
  ("RANAP_MBMSCNDe_RegistrationRequest_t", CStruct "RANAP_MBMSCNDe_RegistrationRequest");
  (* include/osmocom/ranap/RANAP_MBMSCNDe-RegistrationResponse.h:25-39 *)
  ("RANAP_MBMSCNDe_RegistrationResponse_t", CStruct "RANAP_MBMSCNDe_RegistrationResponse");
  (* include/osmocom/ranap/RANAP_MBMSCountingInformation.h:31-31 *)
  ("RANAP_MBMSCountingInformation_t", CName "long");
  (* include/osmocom/ranap/RANAP_MBMSHCIndicator.h:31-31 *)
  ("RANAP_MBMSHCIndicator_t", CName "long");
  (* include/osmocom/ranap/RANAP_MBMSIPMulticastAddressandAPNRequest.h:24-29 *)
  ("RANAP_MBMSIPMulticastAddressandAPNRequest_t", CStruct "RANAP_MBMSIPMulticastAddressandAPNRequest");
  (* include/osmocom/ranap/RANAP_MBMSIPMulticastAddressandAPNlist.h:26-38 *)
  ("RANAP_MBMSIPMulticastAddressandAPNlist_t", CStruct "RANAP_MBMSIPMulticastAddressandAPNlist");
  (* include/osmocom/ranap/RANAP_MBMSLinkingInformation.h:30-30 *)
  ("RANAP_MBMSLinkingInformation_t", CName "long");
  (* include/osmocom/ranap/RANAP_MBMSRABEstablishmentIndication.h:25-39 *)
  ("RANAP_MBMSRABEstablishmentIndication_t", CStruct "RANAP_MBMSRABEstablishmentIndication");
  (* include/osmocom/ranap/RANAP_MBMSRABRelease.h:25-39 *)
  ("RANAP_MBMSRABRelease_t", CStruct "RANAP_MBMSRABRelease");
  (* include/osmocom/ranap/RANAP_MBMSRABReleaseFailure.h:25-39 *)
  ("RANAP_MBMSRABReleaseFailure_t", CStruct "RANAP_MBMSRABReleaseFailure");
  (* include/osmocom/ranap/RANAP_MBMSRABReleaseRequest.h:25-39 *)
  ("RANAP_MBMSRABReleaseRequest_t", CStruct "RANAP_MBMSRABReleaseRequest");
  (* include/osmocom/ranap/RANAP_MBMSRegistrationFailure.h:25-39 *)
  ("RANAP_MBMSRegistrationFailure_t", CStruct "RANAP_MBMSRegistrationFailure");
  (* include/osmocom/ranap/RANAP_MBMSRegistrationRequest.h:25-39 *)
  ("RANAP_MBMSRegistrationRequest_t", CStruct "RANAP_MBMSRegistrationRequest");
  (* include/osmocom/ranap/RANAP_MBMSRegistrationRequestType.h:31-31 *)
  ("RANAP_MBMSRegistrationRequestType_t", CName "long");
  (* include/osmocom/ranap/RANAP_MBMSRegistrationResponse.h:25-39 *)
  ("RANAP_MBMSRegistrationResponse_t", CStruct "RANAP_MBMSRegistrationResponse");
  (* include/osmocom/ranap/RANAP_MBMSServiceArea.h:22-22 *)
  ("RANAP_MBMSServiceArea_t", CName "OCTET_STRING_t");
  (* include/osmocom/ranap/RANAP_MBMSSessionDuration.h:22-22 *)
  ("RANAP_MBMSSessionDuration_t", CName "OCTET_STRING_t");
  (* include/osmocom/ranap/RANAP_MBMSSessionIdentity.h:22-22 *)
  ("RANAP_MBMSSessionIdentity_t", CName "OCTET_STRING_t");
  (* include/osmocom/ranap/RANAP_MBMSSessionRepetitionNumber.h:22-22 *)
  ("RANAP_MBMSSessionRepetitionNumber_t", CName "OCTET_STRING_t");
  (* include/osmocom/ranap/RANAP_MBMSSessionStart.h:25-39 *)
  ("RANAP_MBMSSessionStart_t", CStruct "RANAP_MBMSSessionStart");
  (* include/osmocom/ranap/RANAP_MBMSSessionStartFailure.h:25-39 *)
  ("RANAP_MBMSSessionStartFailure_t", CStruct "RANAP_MBMSSessionStartFailure");
  (* include/osmocom/ranap/RANAP_MBMSSessionStartResponse.h:25-39 *)
  ("RANAP_MBMSSessionStartResponse_t", CStruct "RANAP_MBMSSessionStartResponse");
  (* include/osmocom/ranap/RANAP_MBMSSessionStop.h:25-39 *)
  ("RANAP_MBMSSessionStop_t", CStruct "RANAP_MBMSSessionStop");
  (* include/osmocom/ranap/RANAP_MBMSSessionStopResponse.h:25-39 *)
  ("RANAP_MBMSSessionStopResponse_t", CStruct "RANAP_MBMSSessionStopResponse");
  (* include/osmocom/ranap/RANAP_MBMSSessionUpdate.h:25-39 *)
  ("RANAP_MBMSSessionUpdate_t", CStruct "RANAP_MBMSSessionUpdate");
  (* include/osmocom/ranap/RANAP_MBMSSessionUpdateFailure.h:25-39 *)
  ("RANAP_MBMSSessionUpdateFailure_t", CStruct "RANAP_MBMSSessionUpdateFailure");
  (* include/osmocom/ranap/RANAP_MBMSSessionUpdateResponse.h:25-39 *)
  ("RANAP_MBMSSessionUpdateResponse_t", CStruct "RANAP_MBMSSessionUpdateResponse");
  (* include/osmocom/ranap/RANAP_MBMSSynchronisationInformation.h:26-38 *)
  ("RANAP_MBMSSynchronisationInformation_t", CStruct "RANAP_MBMSSynchronisationInformation");
  (* include/osmocom/ranap/RANAP_MBMSUELinkingRequest.h:25-39 *)
  ("RANAP_MBMSUELinkingRequest_t", CStruct "RANAP_MBMSUELinkingRequest");
  (* include/osmocom/ranap/RANAP_MBMSUELinkingResponse.h:25-39 *)
  ("RANAP_MBMSUELinkingResponse_t", CStruct "RANAP_MBMSUELinkingResponse");
  (* include/osmocom/ranap/RANAP_MDT-Activation.h:32-32 *)
  ("RANAP_MDT_Activation_t", CName "long");
  (* include/osmocom/ranap/RANAP_MDT-Configuration.h:26-38 *)
  ("RANAP_MDT_Configuration_t", CStruct "RANAP_MDT_Configuration");
  (* include/osmocom/ranap/RANAP_MDT-PLMN-List.h:24-29 *)
  ("RANAP_MDT_PLMN_List_t", CStruct "RANAP_MDT_PLMN_List");
  (* include/osmocom/ranap/RANAP_MDT-Report-Parameters.h:24-34 *)
  ("RANAP_MDT_Report_Parameters_t", CStruct "RANAP_MDT_Report_Parameters");
  (* include/osmocom/ranap/RANAP_MDTAreaScope.h:37-52 *)
  ("RANAP_MDTAreaScope_t", CStruct "RANAP_MDTAreaScope");
  (* include/osmocom/ranap/RANAP_MDTMode.h:33-46 *)
  ("RANAP_MDTMode_t", CStruct "RANAP_MDTMode");
  (* include/osmocom/ranap/RANAP_MSISDN.h:22-22 *)
  ("RANAP_MSISDN_t", CName "OCTET_STRING_t");
  (* include/osmocom/ranap/RANAP_Management-Based-MDT-Allowed.h:30-30 *)
  ("RANAP_Management_Based_MDT_Allowed_t", CName "long");
  (* include/osmocom/ranap/RANAP_MaxBitrate.h:22-22 *)
  ("RANAP_MaxBitrate_t", CName "long");
  (* include/osmocom/ranap/RANAP_MaxSDU-Size.h:22-22 *)
  ("RANAP_MaxSDU_Size_t", CName "long");
  (* include/osmocom/ranap/RANAP_MeasBand.h:32-32 *)
  ("RANAP_MeasBand_t", CName "long");
  (* include/osmocom/ranap/RANAP_MeasurementQuantity.h:32-32 *)
  ("RANAP_MeasurementQuantity_t", CName "long");
  (* include/osmocom/ranap/RANAP_MeasurementsToActivate.h:22-22 *)
  ("RANAP_MeasurementsToActivate_t", CName "BIT_STRING_t");
  (* include/osmocom/ranap/RANAP_MessageStructure-Value.h:25-36 *)
  ("RANAP_MessageStructure_Value_t", CStruct "RANAP_MessageStructure_Value");
  (* include/osmocom/ranap/RANAP_MessageStructure.h:24-29 *)
  ("RANAP_MessageStructure_t", CStruct "RANAP_MessageStructure");
  (* include/osmocom/ranap/RANAP_NAS-PDU.h:22-22 *)
  ("RANAP_NAS_PDU_t", CName "OCTET_STRING_t");
  (* include/osmocom/ranap/RANAP_NAS-SequenceNumber.h:22-22 *)
  ("RANAP_NAS_SequenceNumber_t", CName "BIT_STRING_t");
  (* include/osmocom/ranap/RANAP_NAS-SynchronisationIndicator.h:22-22 *)
  ("RANAP_NAS_SynchronisationIndicator_t", CName "BIT_STRING_t");
  (* include/osmocom/ranap/RANAP_NRTLoadInformationValue.h:22-22 *)
  ("RANAP_NRTLoadInformationValue_t", CName "long");
  (* include/osmocom/ranap/RANAP_NewBSS-To-OldBSS-Information.h:22-22 *)
  ("RANAP_NewBSS_To_OldBSS_Information_t", CName "OCTET_STRING_t");
  (* include/osmocom/ranap/RANAP_NewRAListofIdleModeUEs.h:24-29 *)
  ("RANAP_NewRAListofIdleModeUEs_t", CStruct "RANAP_NewRAListofIdleModeUEs");
  (* include/osmocom/ranap/RANAP_NonSearchingIndication.h:28-28 *)
  ("RANAP_NonSearchingIndication_t", CName "long");
  (* include/osmocom/ranap/RANAP_NotEmptyRAListofIdleModeUEs.h:24-30 *)
  ("RANAP_NotEmptyRAListofIdleModeUEs_t", CStruct "RANAP_NotEmptyRAListofIdleModeUEs");
  (* include/osmocom/ranap/RANAP_NumberOfIuInstances.h:22-22 *)
  ("RANAP_NumberOfIuInstances_t", CName "long");
  (* include/osmocom/ranap/RANAP_NumberOfSteps.h:22-22 *)
  ("RANAP_NumberOfSteps_t", CName "long");
  (* include/osmocom/ranap/RANAP_OMC-ID.h:22-22 *)
  ("RANAP_OMC_ID_t", CName "OCTET_STRING_t");
  (* include/osmocom/ranap/RANAP_Offload-RAB-Parameters-APN.h:22-22 *)
  ("RANAP_Offload_RAB_Parameters_APN_t", CName "OCTET_STRING_t");
  (* include/osmocom/ranap/RANAP_Offload-RAB-Parameters-ChargingCharacteristics.h:22-22 *)
  ("RANAP_Offload_RAB_Parameters_ChargingCharacteristics_t", CName "OCTET_STRING_t");
  (* include/osmocom/ranap/RANAP_Offload-RAB-Parameters.h:25-36 *)
  ("RANAP_Offload_RAB_Parameters_t", CStruct "RANAP_Offload_RAB_Parameters");
  (* include/osmocom/ranap/RANAP_OldBSS-ToNewBSS-Information.h:22-22 *)
  ("RANAP_OldBSS_ToNewBSS_Information_t", CName "OCTET_STRING_t");
  (* include/osmocom/ranap/RANAP_Out-Of-UTRAN.h:30-30 *)
  ("RANAP_Out_Of_UTRAN_t", CName "long");
  (* include/osmocom/ranap/RANAP_Outcome.h:25-32 *)
  ("RANAP_Outcome_t", CStruct "RANAP_Outcome");
  (* include/osmocom/ranap/RANAP_Overload.h:25-39 *)
  ("RANAP_Overload_t", CStruct "RANAP_Overload");
  (* include/osmocom/ranap/RANAP_P-TMSI.h:22-22 *)
  ("RANAP_P_TMSI_t", CName "OCTET_STRING_t");
  (* include/osmocom/ranap/RANAP_PDP-Type-extension.h:30-30 *)
  ("RANAP_PDP_Type_extension_t", CName "long");
  (* include/osmocom/ranap/RANAP_PDP-Type.h:34-34 *)
  ("RANAP_PDP_Type_t", CName "long");
  (* include/osmocom/ranap/RANAP_PDP-TypeInformation-extension.h:24-29 *)
  ("RANAP_PDP_TypeInformation_extension_t", CStruct "RANAP_PDP_TypeInformation_extension");
  (* include/osmocom/ranap/RANAP_PDP-TypeInformation.h:24-29 *)
  ("RANAP_PDP_TypeInformation_t", CStruct "RANAP_PDP_TypeInformation");
  (* include/osmocom/ranap/RANAP_PDUType14FrameSequenceNumber.h:22-22 *)
  ("RANAP_PDUType14FrameSequenceNumber_t", CName "long");
  (* include/osmocom/ranap/RANAP_PLMNidentity.h:23-23 *)
  ("RANAP_PLMNidentity_t", CName "OCTET_STRING_t");
  (* include/osmocom/ranap/RANAP_PLMNs-in-shared-network-Value.h:25-36 *)
  ("RANAP_PLMNs_in_shared_network_Value_t", CStruct "RANAP_PLMNs_in_shared_network_Value");
  (* include/osmocom/ranap/RANAP_PLMNs-in-shared-network.h:24-29 *)
  ("RANAP_PLMNs_in_shared_network_t", CStruct "RANAP_PLMNs_in_shared_network");
  (* include/osmocom/ranap/RANAP_Paging.h:25-39 *)
  ("RANAP_Paging_t", CStruct "RANAP_Paging");
  (* include/osmocom/ranap/RANAP_PagingAreaID.h:33-46 *)
  ("RANAP_PagingAreaID_t", CStruct "RANAP_PagingAreaID");
  (* include/osmocom/ranap/RANAP_PagingCause.h:35-35 *)
  ("RANAP_PagingCause_t", CName "long");
  (* include/osmocom/ranap/RANAP_PeriodicLocationInfo.h:24-35 *)
  ("RANAP_PeriodicLocationInfo_t", CStruct "RANAP_PeriodicLocationInfo");
  (* include/osmocom/ranap/RANAP_PeriodicReportingIndicator.h:31-31 *)
  ("RANAP_PeriodicReportingIndicator_t", CName "long");
  (* include/osmocom/ranap/RANAP_PermanentNAS-UE-ID.h:31-43 *)
  ("RANAP_PermanentNAS_UE_ID_t", CStruct "RANAP_PermanentNAS_UE_ID");
  (* include/osmocom/ranap/RANAP_PermittedEncryptionAlgorithms.h:24-29 *)
  ("RANAP_PermittedEncryptionAlgorithms_t", CStruct "RANAP_PermittedEncryptionAlgorithms");
  (* include/osmocom/ranap/RANAP_PermittedIntegrityProtectionAlgorithms.h:24-29 *)
  ("RANAP_PermittedIntegrityProtectionAlgorithms_t", CStruct "RANAP_PermittedIntegrityProtectionAlgorithms");
  (* include/osmocom/ranap/RANAP_Port-Number.h:22-22 *)
  ("RANAP_Port_Number_t", CName "OCTET_STRING_t");
  (* include/osmocom/ranap/RANAP_PositionData.h:25-36 *)
  ("RANAP_PositionData_t", CStruct "RANAP_PositionData");
  (* include/osmocom/ranap/RANAP_PositionDataSpecificToGERANIuMode.h:22-22 *)
  ("RANAP_PositionDataSpecificToGERANIuMode_t", CName "OCTET_STRING_t");
  (* include/osmocom/ranap/RANAP_PositioningDataDiscriminator.h:22-22 *)
  ("RANAP_PositioningDataDiscriminator_t", CName "BIT_STRING_t");
  (* include/osmocom/ranap/RANAP_PositioningDataSet.h:24-29 *)
  ("RANAP_PositioningDataSet_t", CStruct "RANAP_PositioningDataSet");
  (* include/osmocom/ranap/RANAP_PositioningMethodAndUsage.h:22-22 *)
  ("RANAP_PositioningMethodAndUsage_t", CName "OCTET_STRING_t");
  (* include/osmocom/ranap/RANAP_PositioningPriority.h:31-31 *)
  ("RANAP_PositioningPriority_t", CName "long");
  (* include/osmocom/ranap/RANAP_Pre-emptionCapability.h:28-28 *)
  ("RANAP_Pre_emptionCapability_t", CName "long");
  (* include/osmocom/ranap/RANAP_Pre-emptionVulnerability.h:28-28 *)
  ("RANAP_Pre_emptionVulnerability_t", CName "long");
  (* include/osmocom/ranap/RANAP_Presence.h:29-29 *)
  ("RANAP_Presence_t", CName "long");
  (* include/osmocom/ranap/RANAP_Priority-Class-Indicator.h:22-22 *)
  ("RANAP_Priority_Class_Indicator_t", CName "BIT_STRING_t");
  (* include/osmocom/ranap/RANAP_PriorityLevel.h:30-30 *)
  ("RANAP_PriorityLevel_t", CName "long");
  (* include/osmocom/ranap/RANAP_PrivateIE-ID.h:31-40 *)
  ("RANAP_PrivateIE_ID_t", CStruct "RANAP_PrivateIE_ID");
  (* include/osmocom/ranap/RANAP_PrivateMessage.h:25-39 *)
  ("RANAP_PrivateMessage_t", CStruct "RANAP_PrivateMessage");
  (* include/osmocom/ranap/RANAP_ProcedureCode.h:73-73 *)
  ("RANAP_ProcedureCode_t", CName "long");
  (* include/osmocom/ranap/RANAP_ProtocolError-IE-ContainerList.h:24-29 *)
  ("RANAP_ProtocolError_IE_ContainerList_t", CStruct "RANAP_ProtocolError_IE_ContainerList");
  (* include/osmocom/ranap/RANAP_ProtocolExtensionContainer.h:24-29 *)
  ("RANAP_ProtocolExtensionContainer_t", CStruct "RANAP_ProtocolExtensionContainer");
  (* include/osmocom/ranap/RANAP_ProtocolExtensionField.h:25-32 *)
  ("RANAP_ProtocolExtensionField_t", CStruct "RANAP_ProtocolExtensionField");
  (* include/osmocom/ranap/RANAP_ProtocolExtensionID.h:22-22 *)
  ("RANAP_ProtocolExtensionID_t", CName "long");
  (* include/osmocom/ranap/RANAP_ProtocolIE-Container.h:24-29 *)
  ("RANAP_ProtocolIE_Container_t", CStruct "RANAP_ProtocolIE_Container");
  (* include/osmocom/ranap/RANAP_ProtocolIE-ContainerPair.h:24-29 *)
  ("RANAP_ProtocolIE_ContainerPair_t", CStruct "RANAP_ProtocolIE_ContainerPair");
  (* include/osmocom/ranap/RANAP_ProtocolIE-FieldPair.h:25-34 *)
  ("RANAP_ProtocolIE_FieldPair_t", CStruct "RANAP_ProtocolIE_FieldPair");
  (* include/osmocom/ranap/RANAP_ProtocolIE-ID.h:298-298 *)
  ("RANAP_ProtocolIE_ID_t", CName "long");
  (* include/osmocom/ranap/RANAP_ProvidedData.h:31-43 *)
  ("RANAP_ProvidedData_t", CStruct "RANAP_ProvidedData");
  (* include/osmocom/ranap/RANAP_QueuingAllowed.h:28-28 *)
  ("RANAP_QueuingAllowed_t", CName "long");
  (* include/osmocom/ranap/RANAP_RAB-AssignmentRequest.h:25-39 *)
  ("RANAP_RAB_AssignmentRequest_t", CStruct "RANAP_RAB_AssignmentRequest");
  (* include/osmocom/ranap/RANAP_RAB-AssignmentResponse.h:25-39 *)
  ("RANAP_RAB_AssignmentResponse_t", CStruct "RANAP_RAB_AssignmentResponse");
  (* include/osmocom/ranap/RANAP_RAB-AsymmetryIndicator.h:33-33 *)
  ("RANAP_RAB_AsymmetryIndicator_t", CName "long");
  (* include/osmocom/ranap/RANAP_RAB-ContextItem-RANAP-RelocInf.h:28-42 *)
  ("RANAP_RAB_ContextItem_RANAP_RelocInf_t", CStruct "RANAP_RAB_ContextItem_RANAP_RelocInf");
  (* include/osmocom/ranap/RANAP_RAB-ContextItem.h:28-42 *)
  ("RANAP_RAB_ContextItem_t", CStruct "RANAP_RAB_ContextItem");
  (* include/osmocom/ranap/RANAP_RAB-ContextList-RANAP-RelocInf.h:25-39 *)
  ("RANAP_RAB_ContextList_RANAP_RelocInf_t", CStruct "RANAP_RAB_ContextList_RANAP_RelocInf");
  (* include/osmocom/ranap/RANAP_RAB-ContextList.h:25-39 *)
  ("RANAP_RAB_ContextList_t", CStruct "RANAP_RAB_ContextList");
  (* include/osmocom/ranap/RANAP_RAB-DataForwardingItem-SRNS-CtxReq.h:24-34 *)
  ("RANAP_RAB_DataForwardingItem_SRNS_CtxReq_t", CStruct "RANAP_RAB_DataForwardingItem_SRNS_CtxReq");
  (* include/osmocom/ranap/RANAP_RAB-DataForwardingItem.h:26-38 *)
  ("RANAP_RAB_DataForwardingItem_t", CStruct "RANAP_RAB_DataForwardingItem");
  (* include/osmocom/ranap/RANAP_RAB-DataForwardingList-SRNS-CtxReq.h:25-39 *)
  ("RANAP_RAB_DataForwardingList_SRNS_CtxReq_t", CStruct "RANAP_RAB_DataForwardingList_SRNS_CtxReq");
  (* include/osmocom/ranap/RANAP_RAB-DataForwardingList.h:25-39 *)
  ("RANAP_RAB_DataForwardingList_t", CStruct "RANAP_RAB_DataForwardingList");
  (* include/osmocom/ranap/RANAP_RAB-DataVolumeReportItem.h:25-36 *)
  ("RANAP_RAB_DataVolumeReportItem_t", CStruct "RANAP_RAB_DataVolumeReportItem");
  (* include/osmocom/ranap/RANAP_RAB-DataVolumeReportList.h:25-39 *)
  ("RANAP_RAB_DataVolumeReportList_t", CStruct "RANAP_RAB_DataVolumeReportList");
  (* include/osmocom/ranap/RANAP_RAB-DataVolumeReportRequestItem.h:24-34 *)
  ("RANAP_RAB_DataVolumeReportRequestItem_t", CStruct "RANAP_RAB_DataVolumeReportRequestItem");
  (* include/osmocom/ranap/RANAP_RAB-DataVolumeReportRequestList.h:25-39 *)
  ("RANAP_RAB_DataVolumeReportRequestList_t", CStruct "RANAP_RAB_DataVolumeReportRequestList");
  (* include/osmocom/ranap/RANAP_RAB-FailedItem-EnhRelocInfoRes.h:26-38 *)
  ("RANAP_RAB_FailedItem_EnhRelocInfoRes_t", CStruct "RANAP_RAB_FailedItem_EnhRelocInfoRes");
  (* include/osmocom/ranap/RANAP_RAB-FailedItem.h:25-36 *)
  ("RANAP_RAB_FailedItem_t", CStruct "RANAP_RAB_FailedItem");
  (* include/osmocom/ranap/RANAP_RAB-FailedList-EnhRelocInfoRes.h:25-39 *)
  ("RANAP_RAB_FailedList_EnhRelocInfoRes_t", CStruct "RANAP_RAB_FailedList_EnhRelocInfoRes");
  (* include/osmocom/ranap/RANAP_RAB-FailedList.h:25-39 *)
  ("RANAP_RAB_FailedList_t", CStruct "RANAP_RAB_FailedList");
  (* include/osmocom/ranap/RANAP_RAB-ID.h:22-22 *)
  ("RANAP_RAB_ID_t", CName "BIT_STRING_t");
  (* include/osmocom/ranap/RANAP_RAB-IE-ContainerList.h:24-29 *)
  ("RANAP_RAB_IE_ContainerList_t", CStruct "RANAP_RAB_IE_ContainerList");
  (* include/osmocom/ranap/RANAP_RAB-IE-ContainerPairList.h:24-29 *)
  ("RANAP_RAB_IE_ContainerPairList_t", CStruct "RANAP_RAB_IE_ContainerPairList");
  (* include/osmocom/ranap/RANAP_RAB-ModifyItem.h:25-36 *)
  ("RANAP_RAB_ModifyItem_t", CStruct "RANAP_RAB_ModifyItem");
  (* include/osmocom/ranap/RANAP_RAB-ModifyList.h:25-39 *)
  ("RANAP_RAB_ModifyList_t", CStruct "RANAP_RAB_ModifyList");
  (* include/osmocom/ranap/RANAP_RAB-ModifyRequest.h:25-39 *)
  ("RANAP_RAB_ModifyRequest_t", CStruct "RANAP_RAB_ModifyRequest");
  (* include/osmocom/ranap/RANAP_RAB-Parameter-ExtendedGuaranteedBitrateList.h:24-29 *)
  ("RANAP_RAB_Parameter_ExtendedGuaranteedBitrateList_t", CStruct "RANAP_RAB_Parameter_ExtendedGuaranteedBitrateList");
  (* include/osmocom/ranap/RANAP_RAB-Parameter-ExtendedMaxBitrateList.h:24-29 *)
  ("RANAP_RAB_Parameter_ExtendedMaxBitrateList_t", CStruct "RANAP_RAB_Parameter_ExtendedMaxBitrateList");
  (* include/osmocom/ranap/RANAP_RAB-Parameter-GuaranteedBitrateList.h:24-29 *)
  ("RANAP_RAB_Parameter_GuaranteedBitrateList_t", CStruct "RANAP_RAB_Parameter_GuaranteedBitrateList");
  (* include/osmocom/ranap/RANAP_RAB-Parameter-MaxBitrateList.h:24-29 *)
  ("RANAP_RAB_Parameter_MaxBitrateList_t", CStruct "RANAP_RAB_Parameter_MaxBitrateList");
  (* include/osmocom/ranap/RANAP_RAB-Parameters.h:35-56 *)
  ("RANAP_RAB_Parameters_t", CStruct "RANAP_RAB_Parameters");
  (* include/osmocom/ranap/RANAP_RAB-QueuedItem.h:24-34 *)
  ("RANAP_RAB_QueuedItem_t", CStruct "RANAP_RAB_QueuedItem");
  (* include/osmocom/ranap/RANAP_RAB-QueuedList.h:25-39 *)
  ("RANAP_RAB_QueuedList_t", CStruct "RANAP_RAB_QueuedList");
  (* include/osmocom/ranap/RANAP_RAB-ReleaseFailedList.h:22-22 *)
  ("RANAP_RAB_ReleaseFailedList_t", CName "RANAP_RAB_FailedList_t");
  (* include/osmocom/ranap/RANAP_RAB-ReleaseItem.h:25-36 *)
  ("RANAP_RAB_ReleaseItem_t", CStruct "RANAP_RAB_ReleaseItem");
  (* include/osmocom/ranap/RANAP_RAB-ReleaseList.h:25-39 *)
  ("RANAP_RAB_ReleaseList_t", CStruct "RANAP_RAB_ReleaseList");
  (* include/osmocom/ranap/RANAP_RAB-ReleaseRequest.h:25-39 *)
  ("RANAP_RAB_ReleaseRequest_t", CStruct "RANAP_RAB_ReleaseRequest");
  (* include/osmocom/ranap/RANAP_RAB-ReleasedItem-IuRelComp.h:26-38 *)
  ("RANAP_RAB_ReleasedItem_IuRelComp_t", CStruct "RANAP_RAB_ReleasedItem_IuRelComp");
  (* include/osmocom/ranap/RANAP_RAB-ReleasedItem.h:27-40 *)
  ("RANAP_RAB_ReleasedItem_t", CStruct "RANAP_RAB_ReleasedItem");
  (* include/osmocom/ranap/RANAP_RAB-ReleasedList-IuRelComp.h:25-39 *)
  ("RANAP_RAB_ReleasedList_IuRelComp_t", CStruct "RANAP_RAB_ReleasedList_IuRelComp");
  (* include/osmocom/ranap/RANAP_RAB-ReleasedList.h:25-39 *)
  ("RANAP_RAB_ReleasedList_t", CStruct "RANAP_RAB_ReleasedList");
  (* include/osmocom/ranap/RANAP_RAB-RelocationReleaseItem.h:24-34 *)
  ("RANAP_RAB_RelocationReleaseItem_t", CStruct "RANAP_RAB_RelocationReleaseItem");
  (* include/osmocom/ranap/RANAP_RAB-RelocationReleaseList.h:25-39 *)
  ("RANAP_RAB_RelocationReleaseList_t", CStruct "RANAP_RAB_RelocationReleaseList");
  (* include/osmocom/ranap/RANAP_RAB-SetupItem-EnhRelocInfoReq.h:32-51 *)
  ("RANAP_RAB_SetupItem_EnhRelocInfoReq_t", CStruct "RANAP_RAB_SetupItem_EnhRelocInfoReq");
  (* include/osmocom/ranap/RANAP_RAB-SetupItem-EnhRelocInfoRes.h:27-40 *)
  ("RANAP_RAB_SetupItem_EnhRelocInfoRes_t", CStruct "RANAP_RAB_SetupItem_EnhRelocInfoRes");
  (* include/osmocom/ranap/RANAP_RAB-SetupItem-EnhancedRelocCompleteReq.h:27-40 *)
  ("RANAP_RAB_SetupItem_EnhancedRelocCompleteReq_t", CStruct "RANAP_RAB_SetupItem_EnhancedRelocCompleteReq");
  (* include/osmocom/ranap/RANAP_RAB-SetupItem-EnhancedRelocCompleteRes.h:29-44 *)
  ("RANAP_RAB_SetupItem_EnhancedRelocCompleteRes_t", CStruct "RANAP_RAB_SetupItem_EnhancedRelocCompleteRes");
  (* include/osmocom/ranap/RANAP_RAB-SetupItem-RelocReq.h:32-50 *)
  ("RANAP_RAB_SetupItem_RelocReq_t", CStruct "RANAP_RAB_SetupItem_RelocReq");
  (* include/osmocom/ranap/RANAP_RAB-SetupItem-RelocReqAck.h:26-38 *)
  ("RANAP_RAB_SetupItem_RelocReqAck_t", CStruct "RANAP_RAB_SetupItem_RelocReqAck");
  (* include/osmocom/ranap/RANAP_RAB-SetupList-EnhRelocInfoReq.h:25-39 *)
  ("RANAP_RAB_SetupList_EnhRelocInfoReq_t", CStruct "RANAP_RAB_SetupList_EnhRelocInfoReq");
  (* include/osmocom/ranap/RANAP_RAB-SetupList-EnhRelocInfoRes.h:25-39 *)
  ("RANAP_RAB_SetupList_EnhRelocInfoRes_t", CStruct "RANAP_RAB_SetupList_EnhRelocInfoRes");
  (* include/osmocom/ranap/RANAP_RAB-SetupList-EnhancedRelocCompleteReq.h:25-39 *)
  ("RANAP_RAB_SetupList_EnhancedRelocCompleteReq_t", CStruct "RANAP_RAB_SetupList_EnhancedRelocCompleteReq");
  (* include/osmocom/ranap/RANAP_RAB-SetupList-EnhancedRelocCompleteRes.h:25-39 *)
  ("RANAP_RAB_SetupList_EnhancedRelocCompleteRes_t", CStruct "RANAP_RAB_SetupList_EnhancedRelocCompleteRes");
  (* include/osmocom/ranap/RANAP_RAB-SetupList-RelocReq.h:25-39 *)
  ("RANAP_RAB_SetupList_RelocReq_t", CStruct "RANAP_RAB_SetupList_RelocReq");
  (* include/osmocom/ranap/RANAP_RAB-SetupList-RelocReqAck.h:25-39 *)
  ("RANAP_RAB_SetupList_RelocReqAck_t", CStruct "RANAP_RAB_SetupList_RelocReqAck");
  (* include/osmocom/ranap/RANAP_RAB-SetupOrModifiedItem.h:27-40 *)
  ("RANAP_RAB_SetupOrModifiedItem_t", CStruct "RANAP_RAB_SetupOrModifiedItem");
  (* include/osmocom/ranap/RANAP_RAB-SetupOrModifiedList.h:25-39 *)
  ("RANAP_RAB_SetupOrModifiedList_t", CStruct "RANAP_RAB_SetupOrModifiedList");
  (* include/osmocom/ranap/RANAP_RAB-SetupOrModifyItemFirst.h:29-44 *)
  ("RANAP_RAB_SetupOrModifyItemFirst_t", CStruct "RANAP_RAB_SetupOrModifyItemFirst");
  (* include/osmocom/ranap/RANAP_RAB-SetupOrModifyItemSecond.h:29-44 *)
  ("RANAP_RAB_SetupOrModifyItemSecond_t", CStruct "RANAP_RAB_SetupOrModifyItemSecond");
  (* include/osmocom/ranap/RANAP_RAB-SetupOrModifyList.h:22-22 *)
  ("RANAP_RAB_SetupOrModifyList_t", CName "RANAP_RAB_IE_ContainerPairList_t");
  (* include/osmocom/ranap/RANAP_RAB-SubflowCombinationBitRate.h:22-22 *)
  ("RANAP_RAB_SubflowCombinationBitRate_t", CName "long");
  (* include/osmocom/ranap/RANAP_RAB-ToBeReleasedItem-EnhancedRelocCompleteRes.h:25-36 *)
  ("RANAP_RAB_ToBeReleasedItem_EnhancedRelocCompleteRes_t", CStruct "RANAP_RAB_ToBeReleasedItem_EnhancedRelocCompleteRes");
  (* include/osmocom/ranap/RANAP_RAB-ToBeReleasedList-EnhancedRelocCompleteRes.h:25-39 *)
  ("RANAP_RAB_ToBeReleasedList_EnhancedRelocCompleteRes_t", CStruct "RANAP_RAB_ToBeReleasedList_EnhancedRelocCompleteRes");
  (* include/osmocom/ranap/RANAP_RAB-TrCH-Mapping.h:24-29 *)
  ("RANAP_RAB_TrCH_Mapping_t", CStruct "RANAP_RAB_TrCH_Mapping");
  (* include/osmocom/ranap/RANAP_RAB-TrCH-MappingItem.h:25-36 *)
  ("RANAP_RAB_TrCH_MappingItem_t", CStruct "RANAP_RAB_TrCH_MappingItem");
  (* include/osmocom/ranap/RANAP_RABDataVolumeReport-Value.h:25-36 *)
  ("RANAP_RABDataVolumeReport_Value_t", CStruct "RANAP_RABDataVolumeReport_Value");
  (* include/osmocom/ranap/RANAP_RABDataVolumeReport.h:24-29 *)
  ("RANAP_RABDataVolumeReport_t", CStruct "RANAP_RABDataVolumeReport");
  (* include/osmocom/ranap/RANAP_RABParametersList-Value.h:27-40 *)
  ("RANAP_RABParametersList_Value_t", CStruct "RANAP_RABParametersList_Value");
  (* include/osmocom/ranap/RANAP_RABParametersList.h:24-29 *)
  ("RANAP_RABParametersList_t", CStruct "RANAP_RABParametersList");
  (* include/osmocom/ranap/RANAP_RABased.h:24-34 *)
  ("RANAP_RABased_t", CStruct "RANAP_RABased");
  (* include/osmocom/ranap/RANAP_RABs-ContextFailedtoTransferItem.h:25-36 *)
  ("RANAP_RABs_ContextFailedtoTransferItem_t", CStruct "RANAP_RABs_ContextFailedtoTransferItem");
  (* include/osmocom/ranap/RANAP_RABs-ContextFailedtoTransferList.h:25-39 *)
  ("RANAP_RABs_ContextFailedtoTransferList_t", CStruct "RANAP_RABs_ContextFailedtoTransferList");
  (* include/osmocom/ranap/RANAP_RABs-failed-to-reportItem.h:25-36 *)
  ("RANAP_RABs_failed_to_reportItem_t", CStruct "RANAP_RABs_failed_to_reportItem");
  (* include/osmocom/ranap/RANAP_RABs-failed-to-reportList.h:25-39 *)
  ("RANAP_RABs_failed_to_reportList_t", CStruct "RANAP_RABs_failed_to_reportList");
  (* include/osmocom/ranap/RANAP_RAC.h:22-22 *)
  ("RANAP_RAC_t", CName "OCTET_STRING_t");
  (* include/osmocom/ranap/RANAP_RAI-List.h:24-29 *)
  ("RANAP_RAI_List_t", CStruct "RANAP_RAI_List");
  (* include/osmocom/ranap/RANAP_RAI.h:25-36 *)
  ("RANAP_RAI_t", CStruct "RANAP_RAI");
  (* include/osmocom/ranap/RANAP_RAListofIdleModeUEs.h:40-53 *)
  ("RANAP_RAListofIdleModeUEs_t", CStruct "RANAP_RAListofIdleModeUEs");
  (* include/osmocom/ranap/RANAP_RAListwithNoIdleModeUEsAnyMore.h:24-29 *)
  ("RANAP_RAListwithNoIdleModeUEsAnyMore_t", CStruct "RANAP_RAListwithNoIdleModeUEsAnyMore");
  (* include/osmocom/ranap/RANAP_RANAP-EnhancedRelocationInformationRequest.h:25-39 *)
  ("RANAP_RANAP_EnhancedRelocationInformationRequest_t", CStruct "RANAP_RANAP_EnhancedRelocationInformationRequest");
  (* include/osmocom/ranap/RANAP_RANAP-EnhancedRelocationInformationResponse.h:25-39 *)
  ("RANAP_RANAP_EnhancedRelocationInformationResponse_t", CStruct "RANAP_RANAP_EnhancedRelocationInformationResponse");
  (* include/osmocom/ranap/RANAP_RANAP-PDU.h:37-52 *)
  ("RANAP_RANAP_PDU_t", CStruct "RANAP_RANAP_PDU");
  (* include/osmocom/ranap/RANAP_RANAP-RelocationInformation.h:25-39 *)
  ("RANAP_RANAP_RelocationInformation_t", CStruct "RANAP_RANAP_RelocationInformation");
  (* include/osmocom/ranap/RANAP_RAT-Type.h:31-31 *)
  ("RANAP_RAT_Type_t", CName "long");
  (* include/osmocom/ranap/RANAP_RAofIdleModeUEs.h:24-29 *)
  ("RANAP_RAofIdleModeUEs_t", CStruct "RANAP_RAofIdleModeUEs");
  (* include/osmocom/ranap/RANAP_RIM-Transfer.h:25-32 *)
  ("RANAP_RIM_Transfer_t", CStruct "RANAP_RIM_Transfer");
  (* include/osmocom/ranap/RANAP_RIMInformation.h:22-22 *)
  ("RANAP_RIMInformation_t", CName "OCTET_STRING_t");
  (* include/osmocom/ranap/RANAP_RIMRoutingAddress.h:34-48 *)
  ("RANAP_RIMRoutingAddress_t", CStruct "RANAP_RIMRoutingAddress");
  (* include/osmocom/ranap/RANAP_RNC-ID.h:22-22 *)
  ("RANAP_RNC_ID_t", CName "long");
  (* include/osmocom/ranap/RANAP_RNCTraceInformation.h:32-40 *)
  ("RANAP_RNCTraceInformation_t", CStruct "RANAP_RNCTraceInformation");
  (* include/osmocom/ranap/RANAP_RNSAPRelocationParameters.h:27-40 *)
  ("RANAP_RNSAPRelocationParameters_t", CStruct "RANAP_RNSAPRelocationParameters");
  (* include/osmocom/ranap/RANAP_RRC-Container.h:22-22 *)
  ("RANAP_RRC_Container_t", CName "OCTET_STRING_t");
  (* include/osmocom/ranap/RANAP_RSRQ-Extension.h:22-22 *)
  ("RANAP_RSRQ_Extension_t", CName "long");
  (* include/osmocom/ranap/RANAP_RSRQ-Type.h:23-29 *)
  ("RANAP_RSRQ_Type_t", CStruct "RANAP_RSRQ_Type");
  (* include/osmocom/ranap/RANAP_RSRVCC-HO-Indication.h:30-30 *)
  ("RANAP_RSRVCC_HO_Indication_t", CName "long");
  (* include/osmocom/ranap/RANAP_RSRVCC-Information.h:25-36 *)
  ("RANAP_RSRVCC_Information_t", CStruct "RANAP_RSRVCC_Information");
  (* include/osmocom/ranap/RANAP_RSRVCC-Operation-Possible.h:30-30 *)
  ("RANAP_RSRVCC_Operation_Possible_t", CName "long");
  (* include/osmocom/ranap/RANAP_RTLoadValue.h:22-22 *)
  ("RANAP_RTLoadValue_t", CName "long");
  (* include/osmocom/ranap/RANAP_RateControlAllowed.h:28-28 *)
  ("RANAP_RateControlAllowed_t", CName "long");
  (* include/osmocom/ranap/RANAP_RedirectAttemptFlag.h:22-22 *)
  ("RANAP_RedirectAttemptFlag_t", CName "NULL_t");
  (* include/osmocom/ranap/RANAP_RedirectionCompleted.h:30-30 *)
  ("RANAP_RedirectionCompleted_t", CName "long");
  (* include/osmocom/ranap/RANAP_RedirectionIndication.h:25-39 *)
  ("RANAP_RedirectionIndication_t", CStruct "RANAP_RedirectionIndication");
  (* include/osmocom/ranap/RANAP_RejectCauseValue.h:37-37 *)
  ("RANAP_RejectCauseValue_t", CName "long");
  (* include/osmocom/ranap/RANAP_RelocationCancel.h:25-39 *)
  ("RANAP_RelocationCancel_t", CStruct "RANAP_RelocationCancel");
  (* include/osmocom/ranap/RANAP_RelocationCancelAcknowledge.h:25-39 *)
  ("RANAP_RelocationCancelAcknowledge_t", CStruct "RANAP_RelocationCancelAcknowledge");
  (* include/osmocom/ranap/RANAP_RelocationCommand.h:25-39 *)
  ("RANAP_RelocationCommand_t", CStruct "RANAP_RelocationCommand");
  (* include/osmocom/ranap/RANAP_RelocationComplete.h:25-39 *)
  ("RANAP_RelocationComplete_t", CStruct "RANAP_RelocationComplete");
  (* include/osmocom/ranap/RANAP_RelocationDetect.h:25-39 *)
  ("RANAP_RelocationDetect_t", CStruct "RANAP_RelocationDetect");
  (* include/osmocom/ranap/RANAP_RelocationFailure.h:25-39 *)
  ("RANAP_RelocationFailure_t", CStruct "RANAP_RelocationFailure");
  (* include/osmocom/ranap/RANAP_RelocationPreparationFailure.h:25-39 *)
  ("RANAP_RelocationPreparationFailure_t", CStruct "RANAP_RelocationPreparationFailure");
  (* include/osmocom/ranap/RANAP_RelocationRequest.h:25-39 *)
  ("RANAP_RelocationRequest_t", CStruct "RANAP_RelocationRequest");
  (* include/osmocom/ranap/RANAP_RelocationRequestAcknowledge.h:25-39 *)
  ("RANAP_RelocationRequestAcknowledge_t", CStruct "RANAP_RelocationRequestAcknowledge");
  (* include/osmocom/ranap/RANAP_RelocationRequired.h:25-39 *)
  ("RANAP_RelocationRequired_t", CStruct "RANAP_RelocationRequired");
  (* include/osmocom/ranap/RANAP_RelocationRequirement.h:32-32 *)
  ("RANAP_RelocationRequirement_t", CName "long");
  (* include/osmocom/ranap/RANAP_RelocationType.h:31-31 *)
  ("RANAP_RelocationType_t", CName "long");
  (* include/osmocom/ranap/RANAP_RepetitionNumber0.h:22-22 *)
  ("RANAP_RepetitionNumber0_t", CName "long");
  (* include/osmocom/ranap/RANAP_RepetitionNumber1.h:22-22 *)
  ("RANAP_RepetitionNumber1_t", CName "long");
  (* include/osmocom/ranap/RANAP_ReportAmount.h:37-37 *)
  ("RANAP_ReportAmount_t", CName "long");
  (* include/osmocom/ranap/RANAP_ReportArea.h:31-31 *)
  ("RANAP_ReportArea_t", CName "long");
  (* include/osmocom/ranap/RANAP_ReportChangeOfSAI.h:30-30 *)
  ("RANAP_ReportChangeOfSAI_t", CName "long");
  (* include/osmocom/ranap/RANAP_ReportInterval.h:44-44 *)
  ("RANAP_ReportInterval_t", CName "long");
  (* include/osmocom/ranap/RANAP_RequestType.h:25-36 *)
  ("RANAP_RequestType_t", CStruct "RANAP_RequestType");
  (* include/osmocom/ranap/RANAP_Requested-RAB-Parameter-ExtendedGuaranteedBitrateList.h:24-29 *)
  ("RANAP_Requested_RAB_Parameter_ExtendedGuaranteedBitrateList_t", CStruct "RANAP_Requested_RAB_Parameter_ExtendedGuaranteedBitrateList");
  (* include/osmocom/ranap/RANAP_Requested-RAB-Parameter-ExtendedMaxBitrateList.h:24-29 *)
  ("RANAP_Requested_RAB_Parameter_ExtendedMaxBitrateList_t", CStruct "RANAP_Requested_RAB_Parameter_ExtendedMaxBitrateList");
  (* include/osmocom/ranap/RANAP_Requested-RAB-Parameter-GuaranteedBitrateList.h:24-29 *)
  ("RANAP_Requested_RAB_Parameter_GuaranteedBitrateList_t", CStruct "RANAP_Requested_RAB_Parameter_GuaranteedBitrateList");
  (* include/osmocom/ranap/RANAP_Requested-RAB-Parameter-MaxBitrateList.h:24-29 *)
  ("RANAP_Requested_RAB_Parameter_MaxBitrateList_t", CStruct "RANAP_Requested_RAB_Parameter_MaxBitrateList");
  (* include/osmocom/ranap/RANAP_Requested-RAB-Parameter-Values.h:25-36 *)
  ("RANAP_Requested_RAB_Parameter_Values_t", CStruct "RANAP_Requested_RAB_Parameter_Values");
  (* include/osmocom/ranap/RANAP_RequestedGANSSAssistanceData.h:22-22 *)
  ("RANAP_RequestedGANSSAssistanceData_t", CName "OCTET_STRING_t");
  (* include/osmocom/ranap/RANAP_RequestedGPSAssistanceData.h:22-22 *)
  ("RANAP_RequestedGPSAssistanceData_t", CName "OCTET_STRING_t");
  (* include/osmocom/ranap/RANAP_RequestedLocationRelatedDataType.h:37-37 *)
  ("RANAP_RequestedLocationRelatedDataType_t", CName "long");
  (* include/osmocom/ranap/RANAP_RequestedMBMSIPMulticastAddressandAPNRequest.h:24-29 *)
  ("RANAP_RequestedMBMSIPMulticastAddressandAPNRequest_t", CStruct "RANAP_RequestedMBMSIPMulticastAddressandAPNRequest");
  (* include/osmocom/ranap/RANAP_RequestedMulticastServiceList.h:24-29 *)
  ("RANAP_RequestedMulticastServiceList_t", CStruct "RANAP_RequestedMulticastServiceList");
  (* include/osmocom/ranap/RANAP_Reset.h:25-39 *)
  ("RANAP_Reset_t", CStruct "RANAP_Reset");
  (* include/osmocom/ranap/RANAP_ResetAcknowledge.h:25-39 *)
  ("RANAP_ResetAcknowledge_t", CStruct "RANAP_ResetAcknowledge");
  (* include/osmocom/ranap/RANAP_ResetResource.h:25-39 *)
  ("RANAP_ResetResource_t", CStruct "RANAP_ResetResource");
  (* include/osmocom/ranap/RANAP_ResetResourceAckItem.h:24-34 *)
  ("RANAP_ResetResourceAckItem_t", CStruct "RANAP_ResetResourceAckItem");
  (* include/osmocom/ranap/RANAP_ResetResourceAckList.h:25-39 *)
  ("RANAP_ResetResourceAckList_t", CStruct "RANAP_ResetResourceAckList");
  (* include/osmocom/ranap/RANAP_ResetResourceAcknowledge.h:25-39 *)
  ("RANAP_ResetResourceAcknowledge_t", CStruct "RANAP_ResetResourceAcknowledge");
  (* include/osmocom/ranap/RANAP_ResetResourceItem.h:24-34 *)
  ("RANAP_ResetResourceItem_t", CStruct "RANAP_ResetResourceItem");
  (* include/osmocom/ranap/RANAP_ResetResourceList.h:25-39 *)
  ("RANAP_ResetResourceList_t", CStruct "RANAP_ResetResourceList");
  (* include/osmocom/ranap/RANAP_ResidualBitErrorRatio.h:24-31 *)
  ("RANAP_ResidualBitErrorRatio_t", CStruct "RANAP_ResidualBitErrorRatio");
  (* include/osmocom/ranap/RANAP_ResponseTime.h:31-31 *)
  ("RANAP_ResponseTime_t", CName "long");
  (* include/osmocom/ranap/RANAP_SAC.h:22-22 *)
  ("RANAP_SAC_t", CName "OCTET_STRING_t");
  (* include/osmocom/ranap/RANAP_SAI.h:26-34 *)
  ("RANAP_SAI_t", CStruct "RANAP_SAI");
  (* include/osmocom/ranap/RANAP_SAPI.h:31-31 *)
  ("RANAP_SAPI_t", CName "long");
  (* include/osmocom/ranap/RANAP_SDU-ErrorRatio.h:24-31 *)
  ("RANAP_SDU_ErrorRatio_t", CStruct "RANAP_SDU_ErrorRatio");
  (* include/osmocom/ranap/RANAP_SDU-FormatInformationParameterItem.h:25-36 *)
  ("RANAP_SDU_FormatInformationParameterItem_t", CStruct "RANAP_SDU_FormatInformationParameterItem");
  (* include/osmocom/ranap/RANAP_SDU-FormatInformationParameters.h:24-29 *)
  ("RANAP_SDU_FormatInformationParameters_t", CStruct "RANAP_SDU_FormatInformationParameters");
  (* include/osmocom/ranap/RANAP_SDU-ParameterItem.h:27-40 *)
  ("RANAP_SDU_ParameterItem_t", CStruct "RANAP_SDU_ParameterItem");
  (* include/osmocom/ranap/RANAP_SDU-Parameters.h:24-29 *)
  ("RANAP_SDU_Parameters_t", CStruct "RANAP_SDU_Parameters");
  (* include/osmocom/ranap/RANAP_SNA-Access-Information.h:24-34 *)
  ("RANAP_SNA_Access_Information_t", CStruct "RANAP_SNA_Access_Information");
  (* include/osmocom/ranap/RANAP_SNAC.h:22-22 *)
  ("RANAP_SNAC_t", CName "long");
  (* include/osmocom/ranap/RANAP_SRB-ID.h:22-22 *)
  ("RANAP_SRB_ID_t", CName "long");
  (* include/osmocom/ranap/RANAP_SRB-TrCH-Mapping.h:24-29 *)
  ("RANAP_SRB_TrCH_Mapping_t", CStruct "RANAP_SRB_TrCH_Mapping");
  (* include/osmocom/ranap/RANAP_SRB-TrCH-MappingItem.h:25-36 *)
  ("RANAP_SRB_TrCH_MappingItem_t", CStruct "RANAP_SRB_TrCH_MappingItem");
  (* include/osmocom/ranap/RANAP_SRNS-ContextRequest.h:25-39 *)
  ("RANAP_SRNS_ContextRequest_t", CStruct "RANAP_SRNS_ContextRequest");
  (* include/osmocom/ranap/RANAP_SRNS-ContextResponse.h:25-39 *)
  ("RANAP_SRNS_ContextResponse_t", CStruct "RANAP_SRNS_ContextResponse");
  (* include/osmocom/ranap/RANAP_SRNS-DataForwardCommand.h:25-39 *)
  ("RANAP_SRNS_DataForwardCommand_t", CStruct "RANAP_SRNS_DataForwardCommand");
  (* include/osmocom/ranap/RANAP_SRVCC-CSKeysRequest.h:25-39 *)
  ("RANAP_SRVCC_CSKeysRequest_t", CStruct "RANAP_SRVCC_CSKeysRequest");
  (* include/osmocom/ranap/RANAP_SRVCC-CSKeysResponse.h:25-39 *)
  ("RANAP_SRVCC_CSKeysResponse_t", CStruct "RANAP_SRVCC_CSKeysResponse");
  (* include/osmocom/ranap/RANAP_SRVCC-HO-Indication.h:31-31 *)
  ("RANAP_SRVCC_HO_Indication_t", CName "long");
  (* include/osmocom/ranap/RANAP_SRVCC-Information.h:24-34 *)
  ("RANAP_SRVCC_Information_t", CStruct "RANAP_SRVCC_Information");
  (* include/osmocom/ranap/RANAP_SRVCC-Operation-Possible.h:30-30 *)
  ("RANAP_SRVCC_Operation_Possible_t", CName "long");
  (* include/osmocom/ranap/RANAP_SecurityModeCommand.h:25-39 *)
  ("RANAP_SecurityModeCommand_t", CStruct "RANAP_SecurityModeCommand");
  (* include/osmocom/ranap/RANAP_SecurityModeComplete.h:25-39 *)
  ("RANAP_SecurityModeComplete_t", CStruct "RANAP_SecurityModeComplete");
  (* include/osmocom/ranap/RANAP_SecurityModeReject.h:25-39 *)
  ("RANAP_SecurityModeReject_t", CStruct "RANAP_SecurityModeReject");
  (* include/osmocom/ranap/RANAP_Service-Handover.h:32-32 *)
  ("RANAP_Service_Handover_t", CName "long");
  (* include/osmocom/ranap/RANAP_Session-Re-establishment-Indicator.h:30-30 *)
  ("RANAP_Session_Re_establishment_Indicator_t", CName "long");
  (* include/osmocom/ranap/RANAP_SessionUpdateID.h:22-22 *)
  ("RANAP_SessionUpdateID_t", CName "long");
  (* include/osmocom/ranap/RANAP_Shared-Network-Information.h:24-34 *)
  ("RANAP_Shared_Network_Information_t", CStruct "RANAP_Shared_Network_Information");
  (* include/osmocom/ranap/RANAP_SignallingIndication.h:30-30 *)
  ("RANAP_SignallingIndication_t", CName "long");
  (* include/osmocom/ranap/RANAP_Source-ToTarget-TransparentContainer.h:22-22 *)
  ("RANAP_Source_ToTarget_TransparentContainer_t", CName "OCTET_STRING_t");
  (* include/osmocom/ranap/RANAP_SourceBSS-ToTargetBSS-TransparentContainer.h:22-22 *)
  ("RANAP_SourceBSS_ToTargetBSS_TransparentContainer_t", CName "OCTET_STRING_t");
  (* include/osmocom/ranap/RANAP_SourceCellID.h:33-46 *)
  ("RANAP_SourceCellID_t", CStruct "RANAP_SourceCellID");
  (* include/osmocom/ranap/RANAP_SourceID.h:33-46 *)
  ("RANAP_SourceID_t", CStruct "RANAP_SourceID");
  (* include/osmocom/ranap/RANAP_SourceRNC-ID.h:25-32 *)
  ("RANAP_SourceRNC_ID_t", CStruct "RANAP_SourceRNC_ID");
  (* include/osmocom/ranap/RANAP_SourceRNC-ToTargetRNC-TransparentContainer.h:33-54 *)
  ("RANAP_SourceRNC_ToTargetRNC_TransparentContainer_t", CStruct "RANAP_SourceRNC_ToTargetRNC_TransparentContainer");
  (* include/osmocom/ranap/RANAP_SourceStatisticsDescriptor.h:31-31 *)
  ("RANAP_SourceStatisticsDescriptor_t", CName "long");
  (* include/osmocom/ranap/RANAP_SourceUTRANCellID.h:25-32 *)
  ("RANAP_SourceUTRANCellID_t", CStruct "RANAP_SourceUTRANCellID");
  (* include/osmocom/ranap/RANAP_SourceeNodeB-ToTargeteNodeB-TransparentContainer.h:22-22 *)
  ("RANAP_SourceeNodeB_ToTargeteNodeB_TransparentContainer_t", CName "OCTET_STRING_t");
  (* include/osmocom/ranap/RANAP_SubflowSDU-Size.h:22-22 *)
  ("RANAP_SubflowSDU_Size_t", CName "long");
  (* include/osmocom/ranap/RANAP_SubscriberProfileIDforRFP.h:22-22 *)
  ("RANAP_SubscriberProfileIDforRFP_t", CName "long");
  (* include/osmocom/ranap/RANAP_SuccessfulOutcome.h:25-32 *)
  ("RANAP_SuccessfulOutcome_t", CStruct "RANAP_SuccessfulOutcome");
  (* include/osmocom/ranap/RANAP_SupportedBitrate.h:22-22 *)
  ("RANAP_SupportedBitrate_t", CName "long");
  (* include/osmocom/ranap/RANAP_SupportedRAB-ParameterBitrateList.h:24-29 *)
  ("RANAP_SupportedRAB_ParameterBitrateList_t", CStruct "RANAP_SupportedRAB_ParameterBitrateList");
  (* include/osmocom/ranap/RANAP_TAC.h:22-22 *)
  ("RANAP_TAC_t", CName "OCTET_STRING_t");
  (* include/osmocom/ranap/RANAP_TAI.h:25-32 *)
  ("RANAP_TAI_t", CStruct "RANAP_TAI");
  (* include/osmocom/ranap/RANAP_TBCD-STRING.h:22-22 *)
  ("RANAP_TBCD_STRING_t", CName "OCTET_STRING_t");
  (* include/osmocom/ranap/RANAP_TMGI.h:25-32 *)
  ("RANAP_TMGI_t", CStruct "RANAP_TMGI");
  (* include/osmocom/ranap/RANAP_TMSI.h:22-22 *)
  ("RANAP_TMSI_t", CName "OCTET_STRING_t");
  (* include/osmocom/ranap/RANAP_TNLInformationEnhRelInfoReq.h:25-36 *)
  ("RANAP_TNLInformationEnhRelInfoReq_t", CStruct "RANAP_TNLInformationEnhRelInfoReq");
  (* include/osmocom/ranap/RANAP_TNLInformationEnhRelInfoRes.h:25-36 *)
  ("RANAP_TNLInformationEnhRelInfoRes_t", CStruct "RANAP_TNLInformationEnhRelInfoRes");
  (* include/osmocom/ranap/RANAP_Target-ToSource-TransparentContainer.h:22-22 *)
  ("RANAP_Target_ToSource_TransparentContainer_t", CName "OCTET_STRING_t");
  (* include/osmocom/ranap/RANAP_TargetBSS-ToSourceBSS-TransparentContainer.h:22-22 *)
  ("RANAP_TargetBSS_ToSourceBSS_TransparentContainer_t", CName "OCTET_STRING_t");
  (* include/osmocom/ranap/RANAP_TargetCellId.h:22-22 *)
  ("RANAP_TargetCellId_t", CName "long");
  (* include/osmocom/ranap/RANAP_TargetENB-ID.h:26-38 *)
  ("RANAP_TargetENB_ID_t", CStruct "RANAP_TargetENB_ID");
  (* include/osmocom/ranap/RANAP_TargetID.h:34-48 *)
  ("RANAP_TargetID_t", CStruct "RANAP_TargetID");
  (* include/osmocom/ranap/RANAP_TargetRNC-ID.h:26-34 *)
  ("RANAP_TargetRNC_ID_t", CStruct "RANAP_TargetRNC_ID");
  (* include/osmocom/ranap/RANAP_TargetRNC-ToSourceRNC-TransparentContainer.h:25-36 *)
  ("RANAP_TargetRNC_ToSourceRNC_TransparentContainer_t", CStruct "RANAP_TargetRNC_ToSourceRNC_TransparentContainer");
  (* include/osmocom/ranap/RANAP_TargeteNodeB-ToSourceeNodeB-TransparentContainer.h:22-22 *)
  ("RANAP_TargeteNodeB_ToSourceeNodeB_TransparentContainer_t", CName "OCTET_STRING_t");
  (* include/osmocom/ranap/RANAP_TemporaryUE-ID.h:33-46 *)
  ("RANAP_TemporaryUE_ID_t", CStruct "RANAP_TemporaryUE_ID");
  (* include/osmocom/ranap/RANAP_Time-UE-StayedInCell-EnhancedGranularity.h:22-22 *)
  ("RANAP_Time_UE_StayedInCell_EnhancedGranularity_t", CName "long");
  (* include/osmocom/ranap/RANAP_Time-UE-StayedInCell.h:22-22 *)
  ("RANAP_Time_UE_StayedInCell_t", CName "long");
  (* include/osmocom/ranap/RANAP_TimeToMBMSDataTransfer.h:22-22 *)
  ("RANAP_TimeToMBMSDataTransfer_t", CName "OCTET_STRING_t");
  (* include/osmocom/ranap/RANAP_TimingDifferenceULDL.h:22-22 *)
  ("RANAP_TimingDifferenceULDL_t", CName "OCTET_STRING_t");
  (* include/osmocom/ranap/RANAP_TrCH-ID-List.h:24-29 *)
  ("RANAP_TrCH_ID_List_t", CStruct "RANAP_TrCH_ID_List");
  (* include/osmocom/ranap/RANAP_TrCH-ID.h:26-38 *)
  ("RANAP_TrCH_ID_t", CStruct "RANAP_TrCH_ID");
  (* include/osmocom/ranap/RANAP_TraceDepth.h:32-32 *)
  ("RANAP_TraceDepth_t", CName "long");
  (* include/osmocom/ranap/RANAP_TraceInformation.h:26-38 *)
  ("RANAP_TraceInformation_t", CStruct "RANAP_TraceInformation");
  (* include/osmocom/ranap/RANAP_TracePropagationParameters.h:26-38 *)
  ("RANAP_TracePropagationParameters_t", CStruct "RANAP_TracePropagationParameters");
  (* include/osmocom/ranap/RANAP_TraceRecordingSessionInformation.h:25-36 *)
  ("RANAP_TraceRecordingSessionInformation_t", CStruct "RANAP_TraceRecordingSessionInformation");
  (* include/osmocom/ranap/RANAP_TraceRecordingSessionReference.h:22-22 *)
  ("RANAP_TraceRecordingSessionReference_t", CName "long");
  (* include/osmocom/ranap/RANAP_TraceReference.h:22-22 *)
  ("RANAP_TraceReference_t", CName "OCTET_STRING_t");
  (* include/osmocom/ranap/RANAP_TraceType.h:22-22 *)
  ("RANAP_TraceType_t", CName "OCTET_STRING_t");
  (* include/osmocom/ranap/RANAP_TrafficClass.h:33-33 *)
  ("RANAP_TrafficClass_t", CName "long");
  (* include/osmocom/ranap/RANAP_TrafficHandlingPriority.h:30-30 *)
  ("RANAP_TrafficHandlingPriority_t", CName "long");
  (* include/osmocom/ranap/RANAP_TransferDelay.h:22-22 *)
  ("RANAP_TransferDelay_t", CName "long");
  (* include/osmocom/ranap/RANAP_TransportLayerAddress.h:22-22 *)
  ("RANAP_TransportLayerAddress_t", CName "BIT_STRING_t");
  (* include/osmocom/ranap/RANAP_TransportLayerInformation.h:25-36 *)
  ("RANAP_TransportLayerInformation_t", CStruct "RANAP_TransportLayerInformation");
  (* include/osmocom/ranap/RANAP_TriggerID.h:22-22 *)
  ("RANAP_TriggerID_t", CName "OCTET_STRING_t");
  (* include/osmocom/ranap/RANAP_TriggeringMessage.h:30-30 *)
  ("RANAP_TriggeringMessage_t", CName "long");
  (* include/osmocom/ranap/RANAP_TunnelInformation.h:25-36 *)
  ("RANAP_TunnelInformation_t", CStruct "RANAP_TunnelInformation");
  (* include/osmocom/ranap/RANAP_TypeOfError.h:31-31 *)
  ("RANAP_TypeOfError_t", CName "long");
  (* include/osmocom/ranap/RANAP_UE-AggregateMaximumBitRate.h:24-34 *)
  ("RANAP_UE_AggregateMaximumBitRate_t", CStruct "RANAP_UE_AggregateMaximumBitRate");
  (* include/osmocom/ranap/RANAP_UE-AggregateMaximumBitRateDownlink.h:22-22 *)
  ("RANAP_UE_AggregateMaximumBitRateDownlink_t", CName "long");
  (* include/osmocom/ranap/RANAP_UE-AggregateMaximumBitRateUplink.h:22-22 *)
  ("RANAP_UE_AggregateMaximumBitRateUplink_t", CName "long");
  (* include/osmocom/ranap/RANAP_UE-History-Information.h:22-22 *)
  ("RANAP_UE_History_Information_t", CName "OCTET_STRING_t");
  (* include/osmocom/ranap/RANAP_UE-ID.h:34-48 *)
  ("RANAP_UE_ID_t", CStruct "RANAP_UE_ID");
  (* include/osmocom/ranap/RANAP_UESBI-Iu.h:25-36 *)
  ("RANAP_UESBI_Iu_t", CStruct "RANAP_UESBI_Iu");
  (* include/osmocom/ranap/RANAP_UESBI-IuA.h:22-22 *)
  ("RANAP_UESBI_IuA_t", CName "BIT_STRING_t");
  (* include/osmocom/ranap/RANAP_UESBI-IuB.h:22-22 *)
  ("RANAP_UESBI_IuB_t", CName "BIT_STRING_t");
  (* include/osmocom/ranap/RANAP_UESpecificInformationIndication.h:25-39 *)
  ("RANAP_UESpecificInformationIndication_t", CStruct "RANAP_UESpecificInformationIndication");
  (* include/osmocom/ranap/RANAP_UL-GTP-PDU-SequenceNumber.h:22-22 *)
  ("RANAP_UL_GTP_PDU_SequenceNumber_t", CName "long");
  (* include/osmocom/ranap/RANAP_UL-N-PDU-SequenceNumber.h:22-22 *)
  ("RANAP_UL_N_PDU_SequenceNumber_t", CName "long");
  (* include/osmocom/ranap/RANAP_UP-ModeVersions.h:22-22 *)
  ("RANAP_UP_ModeVersions_t", CName "BIT_STRING_t");
  (* include/osmocom/ranap/RANAP_UPInformation.h:27-42 *)
  ("RANAP_UPInformation_t", CStruct "RANAP_UPInformation");
  (* include/osmocom/ranap/RANAP_UPInitialisationFrame.h:22-22 *)
  ("RANAP_UPInitialisationFrame_t", CName "OCTET_STRING_t");
  (* include/osmocom/ranap/RANAP_USCH-ID.h:22-22 *)
  ("RANAP_USCH_ID_t", CName "long");
  (* include/osmocom/ranap/RANAP_UTRAN-CellID.h:25-32 *)
  ("RANAP_UTRAN_CellID_t", CStruct "RANAP_UTRAN_CellID");
  (* include/osmocom/ranap/RANAP_UeRadioCapabilityMatchRequest.h:25-39 *)
  ("RANAP_UeRadioCapabilityMatchRequest_t", CStruct "RANAP_UeRadioCapabilityMatchRequest");
  (* include/osmocom/ranap/RANAP_UeRadioCapabilityMatchResponse.h:25-39 *)
  ("RANAP_UeRadioCapabilityMatchResponse_t", CStruct "RANAP_UeRadioCapabilityMatchResponse");
  (* include/osmocom/ranap/RANAP_UnsuccessfulLinking-IEs-Value.h:25-36 *)
  ("RANAP_UnsuccessfulLinking_IEs_Value_t", CStruct "RANAP_UnsuccessfulLinking_IEs_Value");
  (* include/osmocom/ranap/RANAP_UnsuccessfulLinking-IEs.h:24-29 *)
  ("RANAP_UnsuccessfulLinking_IEs_t", CStruct "RANAP_UnsuccessfulLinking_IEs");
  (* include/osmocom/ranap/RANAP_UnsuccessfulOutcome.h:25-32 *)
  ("RANAP_UnsuccessfulOutcome_t", CStruct "RANAP_UnsuccessfulOutcome");
  (* include/osmocom/ranap/RANAP_UnsuccessfullyTransmittedDataVolume.h:22-22 *)
  ("RANAP_UnsuccessfullyTransmittedDataVolume_t", CName "unsigned long");
  (* include/osmocom/ranap/RANAP_UplinkInformationExchangeFailure.h:25-39 *)
  ("RANAP_UplinkInformationExchangeFailure_t", CStruct "RANAP_UplinkInformationExchangeFailure");
  (* include/osmocom/ranap/RANAP_UplinkInformationExchangeRequest.h:25-39 *)
  ("RANAP_UplinkInformationExchangeRequest_t", CStruct "RANAP_UplinkInformationExchangeRequest");
  (* include/osmocom/ranap/RANAP_UplinkInformationExchangeResponse.h:25-39 *)
  ("RANAP_UplinkInformationExchangeResponse_t", CStruct "RANAP_UplinkInformationExchangeResponse");
  (* include/osmocom/ranap/RANAP_UserPlaneInformation.h:25-36 *)
  ("RANAP_UserPlaneInformation_t", CStruct "RANAP_UserPlaneInformation");
  (* include/osmocom/ranap/RANAP_UserPlaneMode.h:31-31 *)
  ("RANAP_UserPlaneMode_t", CName "long");
  (* include/osmocom/ranap/RANAP_VelocityEstimate.h:37-52 *)
  ("RANAP_VelocityEstimate_t", CStruct "RANAP_VelocityEstimate");
  (* include/osmocom/ranap/RANAP_VerticalAccuracyCode.h:22-22 *)
  ("RANAP_VerticalAccuracyCode_t", CName "long");
  (* include/osmocom/ranap/RANAP_VerticalSpeedDirection.h:28-28 *)
  ("RANAP_VerticalSpeedDirection_t", CName "long");
  (* include/osmocom/ranap/RANAP_VerticalVelocity.h:24-30 *)
  ("RANAP_VerticalVelocity_t", CStruct "RANAP_VerticalVelocity");
  (* include/osmocom/ranap/RANAP_VoiceSupportMatchIndicator.h:31-31 *)
  ("RANAP_VoiceSupportMatchIndicator_t", CName "long");
  (* include/osmocom/ranap/RANAP_AccuracyFulfilmentIndicator.h:22-28 *)
  ("e_RANAP_AccuracyFulfilmentIndicator", CEnum "RANAP_AccuracyFulfilmentIndicator");
  (* include/osmocom/ranap/RANAP_Alt-RAB-Parameter-GuaranteedBitrateType.h:22-29 *)
  ("e_RANAP_Alt_RAB_Parameter_GuaranteedBitrateType", CEnum "RANAP_Alt_RAB_Parameter_GuaranteedBitrateType");
  (* include/osmocom/ranap/RANAP_Alt-RAB-Parameter-MaxBitrateType.h:22-29 *)
  ("e_RANAP_Alt_RAB_Parameter_MaxBitrateType", CEnum "RANAP_Alt_RAB_Parameter_MaxBitrateType");
  (* include/osmocom/ranap/RANAP_AlternativeRABConfigurationRequest.h:22-27 *)
  ("e_RANAP_AlternativeRABConfigurationRequest", CEnum "RANAP_AlternativeRABConfigurationRequest");
  (* include/osmocom/ranap/RANAP_AreaIdentity.h:24-30 *)
  ("RANAP_AreaIdentity_PR", CEnum "RANAP_AreaIdentity_PR");
  (* include/osmocom/ranap/RANAP_CN-DomainIndicator.h:22-25 *)
  ("e_RANAP_CN_DomainIndicator", CEnum "RANAP_CN_DomainIndicator");
  (* include/osmocom/ranap/RANAP_CSFB-Information.h:22-28 *)
  ("e_RANAP_CSFB_Information", CEnum "RANAP_CSFB_Information");
  (* include/osmocom/ranap/RANAP_CSG-Membership-Status.h:22-28 *)
  ("e_RANAP_CSG_Membership_Status", CEnum "RANAP_CSG_Membership_Status");
  (* include/osmocom/ranap/RANAP_Cause.h:29-39 *)
  ("RANAP_Cause_PR", CEnum "RANAP_Cause_PR");
  (* include/osmocom/ranap/RANAP_CauseMisc.h:22-27 *)
  ("e_RANAP_CauseMisc", CEnum "RANAP_CauseMisc");
  (* include/osmocom/ranap/RANAP_CauseNAS.h:22-27 *)
  ("e_RANAP_CauseNAS", CEnum "RANAP_CauseNAS");
  (* include/osmocom/ranap/RANAP_CauseProtocol.h:22-29 *)
  ("e_RANAP_CauseProtocol", CEnum "RANAP_CauseProtocol");
  (* include/osmocom/ranap/RANAP_CauseRadioNetwork.h:22-87 *)
  ("e_RANAP_CauseRadioNetwork", CEnum "RANAP_CauseRadioNetwork");
  (* include/osmocom/ranap/RANAP_CauseRadioNetworkExtension.h:22-36 *)
  ("e_RANAP_CauseRadioNetworkExtension", CEnum "RANAP_CauseRadioNetworkExtension");
  (* include/osmocom/ranap/RANAP_CauseTransmissionNetwork.h:22-25 *)
  ("e_RANAP_CauseTransmissionNetwork", CEnum "RANAP_CauseTransmissionNetwork");
  (* include/osmocom/ranap/RANAP_Cell-Access-Mode.h:22-27 *)
  ("e_RANAP_Cell_Access_Mode", CEnum "RANAP_Cell_Access_Mode");
  (* include/osmocom/ranap/RANAP_CellType.h:22-30 *)
  ("e_RANAP_CellType", CEnum "RANAP_CellType");
  (* include/osmocom/ranap/RANAP_ClientType.h:22-34 *)
  ("e_RANAP_ClientType", CEnum "RANAP_ClientType");
  (* include/osmocom/ranap/RANAP_Criticality.h:22-26 *)
  ("e_RANAP_Criticality", CEnum "RANAP_Criticality");
  (* include/osmocom/ranap/RANAP_DataPDUType.h:22-28 *)
  ("e_RANAP_DataPDUType", CEnum "RANAP_DataPDUType");
  (* include/osmocom/ranap/RANAP_DataVolumeReportingIndication.h:22-25 *)
  ("e_RANAP_DataVolumeReportingIndication", CEnum "RANAP_DataVolumeReportingIndication");
  (* include/osmocom/ranap/RANAP_DeliveryOfErroneousSDU.h:22-26 *)
  ("e_RANAP_DeliveryOfErroneousSDU", CEnum "RANAP_DeliveryOfErroneousSDU");
  (* include/osmocom/ranap/RANAP_DeliveryOrder.h:22-25 *)
  ("e_RANAP_DeliveryOrder", CEnum "RANAP_DeliveryOrder");
  (* include/osmocom/ranap/RANAP_DirectReportingIndicator.h:22-28 *)
  ("e_RANAP_DirectReportingIndicator", CEnum "RANAP_DirectReportingIndicator");
  (* include/osmocom/ranap/RANAP_E-UTRAN-Service-Handover.h:22-27 *)
  ("e_RANAP_E_UTRAN_Service_Handover", CEnum "RANAP_E_UTRAN_Service_Handover");
  (* include/osmocom/ranap/RANAP_ENB-ID.h:23-29 *)
  ("RANAP_ENB_ID_PR", CEnum "RANAP_ENB_ID_PR");
  (* include/osmocom/ranap/RANAP_EncryptionAlgorithm.h:22-26 *)
  ("e_RANAP_EncryptionAlgorithm", CEnum "RANAP_EncryptionAlgorithm");
  (* include/osmocom/ranap/RANAP_End-Of-CSFB.h:22-27 *)
  ("e_RANAP_End_Of_CSFB", CEnum "RANAP_End_Of_CSFB");
  (* include/osmocom/ranap/RANAP_EquipmentsToBeTraced.h:26-34 *)
  ("RANAP_EquipmentsToBeTraced_PR", CEnum "RANAP_EquipmentsToBeTraced_PR");
  (* include/osmocom/ranap/RANAP_Event.h:22-32 *)
  ("e_RANAP_Event", CEnum "RANAP_Event");
  (* include/osmocom/ranap/RANAP_ForwardingIndication.h:22-27 *)
  ("e_RANAP_ForwardingIndication", CEnum "RANAP_ForwardingIndication");
  (* include/osmocom/ranap/RANAP_FrequenceLayerConvergenceFlag.h:22-27 *)
  ("e_RANAP_FrequenceLayerConvergenceFlag", CEnum "RANAP_FrequenceLayerConvergenceFlag");
  (* include/osmocom/ranap/RANAP_GA-AltitudeAndDirection.h:24-27 *)
  ("e_RANAP_GA_AltitudeAndDirection__directionOfAltitude", CEnum "RANAP_GA_AltitudeAndDirection__directionOfAltitude");
  (* include/osmocom/ranap/RANAP_GeographicalArea.h:29-39 *)
  ("RANAP_GeographicalArea_PR", CEnum "RANAP_GeographicalArea_PR");
  (* include/osmocom/ranap/RANAP_GeographicalCoordinates.h:25-28 *)
  ("e_RANAP_GeographicalCoordinates__latitudeSign", CEnum "RANAP_GeographicalCoordinates__latitudeSign");
  (* include/osmocom/ranap/RANAP_HigherBitratesThan16MbpsFlag.h:22-28 *)
  ("e_RANAP_HigherBitratesThan16MbpsFlag", CEnum "RANAP_HigherBitratesThan16MbpsFlag");
  (* include/osmocom/ranap/RANAP_IncludeVelocity.h:22-24 *)
  ("e_RANAP_IncludeVelocity", CEnum "RANAP_IncludeVelocity");
  (* include/osmocom/ranap/RANAP_InformationExchangeType.h:22-28 *)
  ("e_RANAP_InformationExchangeType", CEnum "RANAP_InformationExchangeType");
  (* include/osmocom/ranap/RANAP_InformationRequestType.h:24-30 *)
  ("RANAP_InformationRequestType_PR", CEnum "RANAP_InformationRequestType_PR");
  (* include/osmocom/ranap/RANAP_InformationRequested.h:24-30 *)
  ("RANAP_InformationRequested_PR", CEnum "RANAP_InformationRequested_PR");
  (* include/osmocom/ranap/RANAP_InformationTransferType.h:23-28 *)
  ("RANAP_InformationTransferType_PR", CEnum "RANAP_InformationTransferType_PR");
  (* include/osmocom/ranap/RANAP_IntegrityProtectionAlgorithm.h:22-26 *)
  ("e_RANAP_IntegrityProtectionAlgorithm", CEnum "RANAP_IntegrityProtectionAlgorithm");
  (* include/osmocom/ranap/RANAP_InterSystemInformationTransferType.h:23-28 *)
  ("RANAP_InterSystemInformationTransferType_PR", CEnum "RANAP_InterSystemInformationTransferType_PR");
  (* include/osmocom/ranap/RANAP_InterfacesToTraceItem.h:24-33 *)
  ("e_RANAP_InterfacesToTraceItem__interface", CEnum "RANAP_InterfacesToTraceItem__interface");
  (* include/osmocom/ranap/RANAP_IuTransportAssociation.h:24-30 *)
  ("RANAP_IuTransportAssociation_PR", CEnum "RANAP_IuTransportAssociation_PR");
  (* include/osmocom/ranap/RANAP_KeyStatus.h:22-28 *)
  ("e_RANAP_KeyStatus", CEnum "RANAP_KeyStatus");
  (* include/osmocom/ranap/RANAP_Links-to-log.h:22-29 *)
  ("e_RANAP_Links_to_log", CEnum "RANAP_Links_to_log");
  (* include/osmocom/ranap/RANAP_LocationRelatedDataRequestTypeSpecificToGERANIuMode.h:22-29 *)
  ("e_RANAP_LocationRelatedDataRequestTypeSpecificToGERANIuMode", CEnum "RANAP_LocationRelatedDataRequestTypeSpecificToGERANIuMode");
  (* include/osmocom/ranap/RANAP_LoggingDuration.h:22-32 *)
  ("e_RANAP_LoggingDuration", CEnum "RANAP_LoggingDuration");
  (* include/osmocom/ranap/RANAP_LoggingInterval.h:22-34 *)
  ("e_RANAP_LoggingInterval", CEnum "RANAP_LoggingInterval");
  (* include/osmocom/ranap/RANAP_M1Report.h:24-30 *)
  ("RANAP_M1Report_PR", CEnum "RANAP_M1Report_PR");
  (* include/osmocom/ranap/RANAP_M2Report.h:24-30 *)
  ("RANAP_M2Report_PR", CEnum "RANAP_M2Report_PR");
  (* include/osmocom/ranap/RANAP_M4-Period.h:22-34 *)
  ("e_RANAP_M4_Period", CEnum "RANAP_M4_Period");
  (* include/osmocom/ranap/RANAP_M4Report.h:24-30 *)
  ("RANAP_M4Report_PR", CEnum "RANAP_M4Report_PR");
  (* include/osmocom/ranap/RANAP_M5-Period.h:22-34 *)
  ("e_RANAP_M5_Period", CEnum "RANAP_M5_Period");
  (* include/osmocom/ranap/RANAP_M5Report.h:24-30 *)
  ("RANAP_M5Report_PR", CEnum "RANAP_M5Report_PR");
  (* include/osmocom/ranap/RANAP_M6-Period.h:22-39 *)
  ("e_RANAP_M6_Period", CEnum "RANAP_M6_Period");
  (* include/osmocom/ranap/RANAP_M7-Period.h:22-39 *)
  ("e_RANAP_M7_Period", CEnum "RANAP_M7_Period");
  (* include/osmocom/ranap/RANAP_MBMSBearerServiceType.h:22-28 *)
  ("e_RANAP_MBMSBearerServiceType", CEnum "RANAP_MBMSBearerServiceType");
  (* include/osmocom/ranap/RANAP_MBMSCNDe-Registration.h:22-28 *)
  ("e_RANAP_MBMSCNDe_Registration", CEnum "RANAP_MBMSCNDe_Registration");
  (* include/osmocom/ranap/RANAP_MBMSCountingInformation.h:22-28 *)
  ("e_RANAP_MBMSCountingInformation", CEnum "RANAP_MBMSCountingInformation");
  (* include/osmocom/ranap/RANAP_MBMSHCIndicator.h:22-28 *)
  ("e_RANAP_MBMSHCIndicator", CEnum "RANAP_MBMSHCIndicator");
  (* include/osmocom/ranap/RANAP_MBMSLinkingInformation.h:22-27 *)
  ("e_RANAP_MBMSLinkingInformation", CEnum "RANAP_MBMSLinkingInformation");
  (* include/osmocom/ranap/RANAP_MBMSRegistrationRequestType.h:22-28 *)
  ("e_RANAP_MBMSRegistrationRequestType", CEnum "RANAP_MBMSRegistrationRequestType");
  (* include/osmocom/ranap/RANAP_MDT-Activation.h:22-29 *)
  ("e_RANAP_MDT_Activation", CEnum "RANAP_MDT_Activation");
  (* include/osmocom/ranap/RANAP_MDTAreaScope.h:26-34 *)
  ("RANAP_MDTAreaScope_PR", CEnum "RANAP_MDTAreaScope_PR");
  (* include/osmocom/ranap/RANAP_MDTMode.h:24-30 *)
  ("RANAP_MDTMode_PR", CEnum "RANAP_MDTMode_PR");
  (* include/osmocom/ranap/RANAP_Management-Based-MDT-Allowed.h:22-27 *)
  ("e_RANAP_Management_Based_MDT_Allowed", CEnum "RANAP_Management_Based_MDT_Allowed");
  (* include/osmocom/ranap/RANAP_MeasBand.h:22-29 *)
  ("e_RANAP_MeasBand", CEnum "RANAP_MeasBand");
  (* include/osmocom/ranap/RANAP_MeasurementQuantity.h:22-29 *)
  ("e_RANAP_MeasurementQuantity", CEnum "RANAP_MeasurementQuantity");
  (* include/osmocom/ranap/RANAP_NonSearchingIndication.h:22-25 *)
  ("e_RANAP_NonSearchingIndication", CEnum "RANAP_NonSearchingIndication");
  (* include/osmocom/ranap/RANAP_Out-Of-UTRAN.h:22-27 *)
  ("e_RANAP_Out_Of_UTRAN", CEnum "RANAP_Out_Of_UTRAN");
  (* include/osmocom/ranap/RANAP_PDP-Type-extension.h:22-27 *)
  ("e_RANAP_PDP_Type_extension", CEnum "RANAP_PDP_Type_extension");
  (* include/osmocom/ranap/RANAP_PDP-Type.h:22-31 *)
  ("e_RANAP_PDP_Type", CEnum "RANAP_PDP_Type");
  (* include/osmocom/ranap/RANAP_PagingAreaID.h:24-30 *)
  ("RANAP_PagingAreaID_PR", CEnum "RANAP_PagingAreaID_PR");
  (* include/osmocom/ranap/RANAP_PagingCause.h:22-32 *)
  ("e_RANAP_PagingCause", CEnum "RANAP_PagingCause");
  (* include/osmocom/ranap/RANAP_PeriodicReportingIndicator.h:22-28 *)
  ("e_RANAP_PeriodicReportingIndicator", CEnum "RANAP_PeriodicReportingIndicator");
  (* include/osmocom/ranap/RANAP_PermanentNAS-UE-ID.h:23-28 *)
  ("RANAP_PermanentNAS_UE_ID_PR", CEnum "RANAP_PermanentNAS_UE_ID_PR");
  (* include/osmocom/ranap/RANAP_PositioningPriority.h:22-28 *)
  ("e_RANAP_PositioningPriority", CEnum "RANAP_PositioningPriority");
  (* include/osmocom/ranap/RANAP_Pre-emptionCapability.h:22-25 *)
  ("e_RANAP_Pre_emptionCapability", CEnum "RANAP_Pre_emptionCapability");
  (* include/osmocom/ranap/RANAP_Pre-emptionVulnerability.h:22-25 *)
  ("e_RANAP_Pre_emptionVulnerability", CEnum "RANAP_Pre_emptionVulnerability");
  (* include/osmocom/ranap/RANAP_Presence.h:22-26 *)
  ("e_RANAP_Presence", CEnum "RANAP_Presence");
  (* include/osmocom/ranap/RANAP_PriorityLevel.h:22-27 *)
  ("e_RANAP_PriorityLevel", CEnum "RANAP_PriorityLevel");
  (* include/osmocom/ranap/RANAP_PrivateIE-ID.h:24-28 *)
  ("RANAP_PrivateIE_ID_PR", CEnum "RANAP_PrivateIE_ID_PR");
  (* include/osmocom/ranap/RANAP_ProcedureCode.h:22-70 *)
  ("e_RANAP_ProcedureCode", CEnum "RANAP_ProcedureCode");
  (* include/osmocom/ranap/RANAP_ProtocolIE-ID.h:22-295 *)
  ("e_RANAP_ProtocolIE_ID", CEnum "RANAP_ProtocolIE_ID");
  (* include/osmocom/ranap/RANAP_ProvidedData.h:23-28 *)
  ("RANAP_ProvidedData_PR", CEnum "RANAP_ProvidedData_PR");
  (* include/osmocom/ranap/RANAP_QueuingAllowed.h:22-25 *)
  ("e_RANAP_QueuingAllowed", CEnum "RANAP_QueuingAllowed");
  (* include/osmocom/ranap/RANAP_RAB-AsymmetryIndicator.h:22-30 *)
  ("e_RANAP_RAB_AsymmetryIndicator", CEnum "RANAP_RAB_AsymmetryIndicator");
  (* include/osmocom/ranap/RANAP_RAListofIdleModeUEs.h:24-30 *)
  ("RANAP_RAListofIdleModeUEs_PR", CEnum "RANAP_RAListofIdleModeUEs_PR");
  (* include/osmocom/ranap/RANAP_RAListofIdleModeUEs.h:31-37 *)
  ("e_RANAP_RAListofIdleModeUEs__emptyFullRAListofIdleModeUEs", CEnum "RANAP_RAListofIdleModeUEs__emptyFullRAListofIdleModeUEs");
  (* include/osmocom/ranap/RANAP_RANAP-PDU.h:26-34 *)
  ("RANAP_RANAP_PDU_PR", CEnum "RANAP_RANAP_PDU_PR");
  (* include/osmocom/ranap/RANAP_RAT-Type.h:22-28 *)
  ("e_RANAP_RAT_Type", CEnum "RANAP_RAT_Type");
  (* include/osmocom/ranap/RANAP_RIMRoutingAddress.h:25-31 *)
  ("RANAP_RIMRoutingAddress_PR", CEnum "RANAP_RIMRoutingAddress_PR");
  (* include/osmocom/ranap/RANAP_RNCTraceInformation.h:26-29 *)
  ("e_RANAP_RNCTraceInformation__traceActivationIndicato", CEnum "RANAP_RNCTraceInformation__traceActivationIndicato");
  (* include/osmocom/ranap/RANAP_RSRVCC-HO-Indication.h:22-27 *)
  ("e_RANAP_RSRVCC_HO_Indication", CEnum "RANAP_RSRVCC_HO_Indication");
  (* include/osmocom/ranap/RANAP_RSRVCC-Operation-Possible.h:22-27 *)
  ("e_RANAP_RSRVCC_Operation_Possible", CEnum "RANAP_RSRVCC_Operation_Possible");
  (* include/osmocom/ranap/RANAP_RateControlAllowed.h:22-25 *)
  ("e_RANAP_RateControlAllowed", CEnum "RANAP_RateControlAllowed");
  (* include/osmocom/ranap/RANAP_RedirectionCompleted.h:22-27 *)
  ("e_RANAP_RedirectionCompleted", CEnum "RANAP_RedirectionCompleted");
  (* include/osmocom/ranap/RANAP_RejectCauseValue.h:22-34 *)
  ("e_RANAP_RejectCauseValue", CEnum "RANAP_RejectCauseValue");
  (* include/osmocom/ranap/RANAP_RelocationRequirement.h:22-29 *)
  ("e_RANAP_RelocationRequirement", CEnum "RANAP_RelocationRequirement");
  (* include/osmocom/ranap/RANAP_RelocationType.h:22-28 *)
  ("e_RANAP_RelocationType", CEnum "RANAP_RelocationType");
  (* include/osmocom/ranap/RANAP_ReportAmount.h:22-34 *)
  ("e_RANAP_ReportAmount", CEnum "RANAP_ReportAmount");
  (* include/osmocom/ranap/RANAP_ReportArea.h:22-28 *)
  ("e_RANAP_ReportArea", CEnum "RANAP_ReportArea");
  (* include/osmocom/ranap/RANAP_ReportChangeOfSAI.h:22-27 *)
  ("e_RANAP_ReportChangeOfSAI", CEnum "RANAP_ReportChangeOfSAI");
  (* include/osmocom/ranap/RANAP_ReportInterval.h:22-41 *)
  ("e_RANAP_ReportInterval", CEnum "RANAP_ReportInterval");
  (* include/osmocom/ranap/RANAP_RequestedLocationRelatedDataType.h:22-34 *)
  ("e_RANAP_RequestedLocationRelatedDataType", CEnum "RANAP_RequestedLocationRelatedDataType");
  (* include/osmocom/ranap/RANAP_ResponseTime.h:22-28 *)
  ("e_RANAP_ResponseTime", CEnum "RANAP_ResponseTime");
  (* include/osmocom/ranap/RANAP_SAPI.h:22-28 *)
  ("e_RANAP_SAPI", CEnum "RANAP_SAPI");
  (* include/osmocom/ranap/RANAP_SRVCC-HO-Indication.h:22-28 *)
  ("e_RANAP_SRVCC_HO_Indication", CEnum "RANAP_SRVCC_HO_Indication");
  (* include/osmocom/ranap/RANAP_SRVCC-Operation-Possible.h:22-27 *)
  ("e_RANAP_SRVCC_Operation_Possible", CEnum "RANAP_SRVCC_Operation_Possible");
  (* include/osmocom/ranap/RANAP_Service-Handover.h:22-29 *)
  ("e_RANAP_Service_Handover", CEnum "RANAP_Service_Handover");
  (* include/osmocom/ranap/RANAP_Session-Re-establishment-Indicator.h:22-27 *)
  ("e_RANAP_Session_Re_establishment_Indicator", CEnum "RANAP_Session_Re_establishment_Indicator");
  (* include/osmocom/ranap/RANAP_SignallingIndication.h:22-27 *)
  ("e_RANAP_SignallingIndication", CEnum "RANAP_SignallingIndication");
  (* include/osmocom/ranap/RANAP_SourceCellID.h:24-30 *)
  ("RANAP_SourceCellID_PR", CEnum "RANAP_SourceCellID_PR");
  (* include/osmocom/ranap/RANAP_SourceID.h:24-30 *)
  ("RANAP_SourceID_PR", CEnum "RANAP_SourceID_PR");
  (* include/osmocom/ranap/RANAP_SourceStatisticsDescriptor.h:22-28 *)
  ("e_RANAP_SourceStatisticsDescriptor", CEnum "RANAP_SourceStatisticsDescriptor");
  (* include/osmocom/ranap/RANAP_TargetID.h:25-31 *)
  ("RANAP_TargetID_PR", CEnum "RANAP_TargetID_PR");
  (* include/osmocom/ranap/RANAP_TemporaryUE-ID.h:24-30 *)
  ("RANAP_TemporaryUE_ID_PR", CEnum "RANAP_TemporaryUE_ID_PR");
  (* include/osmocom/ranap/RANAP_TraceDepth.h:22-29 *)
  ("e_RANAP_TraceDepth", CEnum "RANAP_TraceDepth");
  (* include/osmocom/ranap/RANAP_TrafficClass.h:22-30 *)
  ("e_RANAP_TrafficClass", CEnum "RANAP_TrafficClass");
  (* include/osmocom/ranap/RANAP_TrafficHandlingPriority.h:22-27 *)
  ("e_RANAP_TrafficHandlingPriority", CEnum "RANAP_TrafficHandlingPriority");
  (* include/osmocom/ranap/RANAP_TriggeringMessage.h:22-27 *)
  ("e_RANAP_TriggeringMessage", CEnum "RANAP_TriggeringMessage");
  (* include/osmocom/ranap/RANAP_TypeOfError.h:22-28 *)
  ("e_RANAP_TypeOfError", CEnum "RANAP_TypeOfError");
  (* include/osmocom/ranap/RANAP_UE-ID.h:25-31 *)
  ("RANAP_UE_ID_PR", CEnum "RANAP_UE_ID_PR");
  (* include/osmocom/ranap/RANAP_UserPlaneMode.h:22-28 *)
  ("e_RANAP_UserPlaneMode", CEnum "RANAP_UserPlaneMode");
  (* include/osmocom/ranap/RANAP_VelocityEstimate.h:26-34 *)
  ("RANAP_VelocityEstimate_PR", CEnum "RANAP_VelocityEstimate_PR");
  (* include/osmocom/ranap/RANAP_VerticalSpeedDirection.h:22-25 *)
  ("e_RANAP_VerticalSpeedDirection", CEnum "RANAP_VerticalSpeedDirection");
  (* include/osmocom/ranap/RANAP_VoiceSupportMatchIndicator.h:22-28 *)
  ("e_RANAP_VoiceSupportMatchIndicator", CEnum "RANAP_VoiceSupportMatchIndicator") ].

Definition ranap_structs : list (string * list cmember) := [
  (* include/osmocom/ranap/RANAP_AllocationOrRetentionPriority.h:27-40 *)
  ("RANAP_AllocationOrRetentionPriority", [CM "priorityLevel" false (CName "RANAP_PriorityLevel_t"); CM "pre_emptionCapability" false (CName "RANAP_Pre_emptionCapability_t"); CM "pre_emptionVulnerability" false (CName "RANAP_Pre_emptionVulnerability_t"); CM "queuingAllowed" false (CName "RANAP_QueuingAllowed_t"); CM "iE_Extensions" true (CName "RANAP_IE_Extensions_t"); CM "_asn_ctx" false (CName "asn_struct_ctx_t")]);
  (* include/osmocom/ranap/RANAP_Alt-RAB-Parameter-ExtendedGuaranteedBitrateInf.h:24-34 *)
  ("RANAP_Alt_RAB_Parameter_ExtendedGuaranteedBitrateInf", [CM "altExtendedGuaranteedBitrateType" false (CName "RANAP_Alt_RAB_Parameter_GuaranteedBitrateType_t"); CM "altExtendedGuaranteedBitrates" true (CName "RANAP_Alt_RAB_Parameter_ExtendedGuaranteedBitrates_t"); CM "_asn_ctx" false (CName "asn_struct_ctx_t")]);
  (* include/osmocom/ranap/RANAP_Alt-RAB-Parameter-ExtendedGuaranteedBitrateList.h:24-29 *)
  ("RANAP_Alt_RAB_Parameter_ExtendedGuaranteedBitrateList", [CM "list" false (CList (CName "RANAP_ExtendedGuaranteedBitrate_t")); CM "_asn_ctx" false (CName "asn_struct_ctx_t")]);
  (* include/osmocom/ranap/RANAP_Alt-RAB-Parameter-ExtendedGuaranteedBitrates.h:24-29 *)
  ("RANAP_Alt_RAB_Parameter_ExtendedGuaranteedBitrates", [CM "list" false (CList (CName "RANAP_Alt_RAB_Parameter_ExtendedGuaranteedBitrateList_t")); CM "_asn_ctx" false (CName "asn_struct_ctx_t")]);
  (* include/osmocom/ranap/RANAP_Alt-RAB-Parameter-ExtendedMaxBitrateInf.h:24-34 *)
  ("RANAP_Alt_RAB_Parameter_ExtendedMaxBitrateInf", [CM "altExtendedMaxBitrateType" false (CName "RANAP_Alt_RAB_Parameter_MaxBitrateType_t"); CM "altExtendedMaxBitrates" true (CName "RANAP_Alt_RAB_Parameter_ExtendedMaxBitrates_t"); CM "_asn_ctx" false (CName "asn_struct_ctx_t")]);
  (* include/osmocom/ranap/RANAP_Alt-RAB-Parameter-ExtendedMaxBitrateList.h:24-29 *)
  ("RANAP_Alt_RAB_Parameter_ExtendedMaxBitrateList", [CM "list" false (CList (CName "RANAP_ExtendedMaxBitrate_t")); CM "_asn_ctx" false (CName "asn_struct_ctx_t")]);
  (* include/osmocom/ranap/RANAP_Alt-RAB-Parameter-ExtendedMaxBitrates.h:24-29 *)
  ("RANAP_Alt_RAB_Parameter_ExtendedMaxBitrates", [CM "list" false (CList (CName "RANAP_Alt_RAB_Parameter_ExtendedMaxBitrateList_t")); CM "_asn_ctx" false (CName "asn_struct_ctx_t")]);
  (* include/osmocom/ranap/RANAP_Alt-RAB-Parameter-GuaranteedBitrateInf.h:24-34 *)
  ("RANAP_Alt_RAB_Parameter_GuaranteedBitrateInf", [CM "altGuaranteedBitrateType" false (CName "RANAP_Alt_RAB_Parameter_GuaranteedBitrateType_t"); CM "altGuaranteedBitrates" true (CName "RANAP_Alt_RAB_Parameter_GuaranteedBitrates_t"); CM "_asn_ctx" false (CName "asn_struct_ctx_t")]);
  (* include/osmocom/ranap/RANAP_Alt-RAB-Parameter-GuaranteedBitrateList.h:24-29 *)
  ("RANAP_Alt_RAB_Parameter_GuaranteedBitrateList", [CM "list" false (CList (CName "RANAP_GuaranteedBitrate_t")); CM "_asn_ctx" false (CName "asn_struct_ctx_t")]);
  (* include/osmocom/ranap/RANAP_Alt-RAB-Parameter-GuaranteedBitrates.h:24-29 *)
  ("RANAP_Alt_RAB_Parameter_GuaranteedBitrates", [CM "list" false (CList (CName "RANAP_Alt_RAB_Parameter_GuaranteedBitrateList_t")); CM "_asn_ctx" false (CName "asn_struct_ctx_t")]);
  (* include/osmocom/ranap/RANAP_Alt-RAB-Parameter-MaxBitrateInf.h:24-34 *)
  ("RANAP_Alt_RAB_Parameter_MaxBitrateInf", [CM "altMaxBitrateType" false (CName "RANAP_Alt_RAB_Parameter_MaxBitrateType_t"); CM "altMaxBitrates" true (CName "RANAP_Alt_RAB_Parameter_MaxBitrates_t"); CM "_asn_ctx" false (CName "asn_struct_ctx_t")]);
  (* include/osmocom/ranap/RANAP_Alt-RAB-Parameter-MaxBitrateList.h:24-29 *)
  ("RANAP_Alt_RAB_Parameter_MaxBitrateList", [CM "list" false (CList (CName "RANAP_MaxBitrate_t")); CM "_asn_ctx" false (CName "asn_struct_ctx_t")]);
  (* include/osmocom/ranap/RANAP_Alt-RAB-Parameter-MaxBitrates.h:24-29 *)
  ("RANAP_Alt_RAB_Parameter_MaxBitrates", [CM "list" false (CList (CName "RANAP_Alt_RAB_Parameter_MaxBitrateList_t")); CM "_asn_ctx" false (CName "asn_struct_ctx_t")]);
  (* include/osmocom/ranap/RANAP_Alt-RAB-Parameter-SupportedGuaranteedBitrateInf.h:25-36 *)
  ("RANAP_Alt_RAB_Parameter_SupportedGuaranteedBitrateInf", [CM "altSupportedGuaranteedBitrateType" false (CName "RANAP_Alt_RAB_Parameter_GuaranteedBitrateType_t"); CM "altSupportedGuaranteedBitrates" true (CName "RANAP_Alt_RAB_Parameter_SupportedGuaranteedBitrates_t"); CM "iE_Extensions" true (CName "RANAP_IE_Extensions_t"); CM "_asn_ctx" false (CName "asn_struct_ctx_t")]);
  (* include/osmocom/ranap/RANAP_Alt-RAB-Parameter-SupportedGuaranteedBitrates.h:24-29 *)
  ("RANAP_Alt_RAB_Parameter_SupportedGuaranteedBitrates", [CM "list" false (CList (CName "RANAP_SupportedRAB_ParameterBitrateList_t")); CM "_asn_ctx" false (CName "asn_struct_ctx_t")]);
  (* include/osmocom/ranap/RANAP_Alt-RAB-Parameter-SupportedMaxBitrateInf.h:25-36 *)
  ("RANAP_Alt_RAB_Parameter_SupportedMaxBitrateInf", [CM "altSupportedMaxBitrateType" false (CName "RANAP_Alt_RAB_Parameter_MaxBitrateType_t"); CM "altSupportedMaxBitrates" true (CName "RANAP_Alt_RAB_Parameter_SupportedMaxBitrates_t"); CM "iE_Extensions" true (CName "RANAP_IE_Extensions_t"); CM "_asn_ctx" false (CName "asn_struct_ctx_t")]);
  (* include/osmocom/ranap/RANAP_Alt-RAB-Parameter-SupportedMaxBitrates.h:24-29 *)
  ("RANAP_Alt_RAB_Parameter_SupportedMaxBitrates", [CM "list" false (CList (CName "RANAP_SupportedRAB_ParameterBitrateList_t")); CM "_asn_ctx" false (CName "asn_struct_ctx_t")]);
  (* include/osmocom/ranap/RANAP_Alt-RAB-Parameters.h:25-36 *)
  ("RANAP_Alt_RAB_Parameters", [CM "altMaxBitrateInf" true (CName "RANAP_Alt_RAB_Parameter_MaxBitrateInf_t"); CM "altGuaranteedBitRateInf" true (CName "RANAP_Alt_RAB_Parameter_GuaranteedBitrateInf_t"); CM "iE_Extensions" true (CName "RANAP_IE_Extensions_t"); CM "_asn_ctx" false (CName "asn_struct_ctx_t")]);
  (* include/osmocom/ranap/RANAP_AreaIdentity.h:33-46 *)
  ("RANAP_AreaIdentity", [CM "present" false (CName "RANAP_AreaIdentity_PR"); CM "choice" false (CUnion "RANAP_AreaIdentity_u"); CM "_asn_ctx" false (CName "asn_struct_ctx_t")]);
  (* include/osmocom/ranap/RANAP_Ass-RAB-Parameter-ExtendedGuaranteedBitrateList.h:24-29 *)
  ("RANAP_Ass_RAB_Parameter_ExtendedGuaranteedBitrateList", [CM "list" false (CList (CName "RANAP_ExtendedGuaranteedBitrate_t")); CM "_asn_ctx" false (CName "asn_struct_ctx_t")]);
  (* include/osmocom/ranap/RANAP_Ass-RAB-Parameter-ExtendedMaxBitrateList.h:24-29 *)
  ("RANAP_Ass_RAB_Parameter_ExtendedMaxBitrateList", [CM "list" false (CList (CName "RANAP_ExtendedMaxBitrate_t")); CM "_asn_ctx" false (CName "asn_struct_ctx_t")]);
  (* include/osmocom/ranap/RANAP_Ass-RAB-Parameter-GuaranteedBitrateList.h:24-29 *)
  ("RANAP_Ass_RAB_Parameter_GuaranteedBitrateList", [CM "list" false (CList (CName "RANAP_GuaranteedBitrate_t")); CM "_asn_ctx" false (CName "asn_struct_ctx_t")]);
  (* include/osmocom/ranap/RANAP_Ass-RAB-Parameter-MaxBitrateList.h:24-29 *)
  ("RANAP_Ass_RAB_Parameter_MaxBitrateList", [CM "list" false (CList (CName "RANAP_MaxBitrate_t")); CM "_asn_ctx" false (CName "asn_struct_ctx_t")]);
  (* include/osmocom/ranap/RANAP_Ass-RAB-Parameters.h:25-36 *)
  ("RANAP_Ass_RAB_Parameters", [CM "assMaxBitrateInf" true (CName "RANAP_Ass_RAB_Parameter_MaxBitrateList_t"); CM "assGuaranteedBitRateInf" true (CName "RANAP_Ass_RAB_Parameter_GuaranteedBitrateList_t"); CM "iE_Extensions" true (CName "RANAP_IE_Extensions_t"); CM "_asn_ctx" false (CName "asn_struct_ctx_t")]);
  (* include/osmocom/ranap/RANAP_AuthorisedPLMNs-Value.h:25-36 *)
  ("RANAP_AuthorisedPLMNs_Value", [CM "pLMNidentity" false (CName "RANAP_PLMNidentity_t"); CM "authorisedSNAsList" true (CName "RANAP_AuthorisedSNAs_t"); CM "iE_Extensions" true (CName "RANAP_IE_Extensions_t"); CM "_asn_ctx" false (CName "asn_struct_ctx_t")]);
  (* include/osmocom/ranap/RANAP_AuthorisedPLMNs.h:24-29 *)
  ("RANAP_AuthorisedPLMNs", [CM "list" false (CList (CName "RANAP_AuthorisedPLMNs_Value_t")); CM "_asn_ctx" false (CName "asn_struct_ctx_t")]);
  (* include/osmocom/ranap/RANAP_AuthorisedSNAs.h:24-29 *)
  ("RANAP_AuthorisedSNAs", [CM "list" false (CList (CName "RANAP_SNAC_t")); CM "_asn_ctx" false (CName "asn_struct_ctx_t")]);
  (* include/osmocom/ranap/RANAP_BroadcastAssistanceDataDecipheringKeys.h:23-34 *)
  ("RANAP_BroadcastAssistanceDataDecipheringKeys", [CM "cipheringKeyFlag" false (CName "BIT_STRING_t"); CM "currentDecipheringKey" false (CName "BIT_STRING_t"); CM "nextDecipheringKey" false (CName "BIT_STRING_t"); CM "_asn_ctx" false (CName "asn_struct_ctx_t")]);
  (* include/osmocom/ranap/RANAP_CGI.h:26-34 *)
  ("RANAP_CGI", [CM "pLMNidentity" false (CName "RANAP_PLMNidentity_t"); CM "lAC" false (CName "RANAP_LAC_t"); CM "cI" false (CName "RANAP_CI_t"); CM "iE_Extensions" true (CName "RANAP_IE_Extensions_t"); CM "_asn_ctx" false (CName "asn_struct_ctx_t")]);
  (* include/osmocom/ranap/RANAP_CN-DeactivateTrace.h:25-39 *)
  ("RANAP_CN_DeactivateTrace__cN_DeactivateTrace_ies", [CM "list" false (CList (CName "RANAP_IE_t")); CM "_asn_ctx" false (CName "asn_struct_ctx_t")]);
  (* include/osmocom/ranap/RANAP_CN-DeactivateTrace.h:25-39 *)
  ("RANAP_CN_DeactivateTrace", [CM "cN_DeactivateTrace_ies" false (CStruct "RANAP_CN_DeactivateTrace__cN_DeactivateTrace_ies"); CM "_asn_ctx" false (CName "asn_struct_ctx_t")]);
  (* include/osmocom/ranap/RANAP_CN-InvokeTrace.h:25-39 *)
  ("RANAP_CN_InvokeTrace__cN_InvokeTrace_ies", [CM "list" false (CList (CName "RANAP_IE_t")); CM "_asn_ctx" false (CName "asn_struct_ctx_t")]);
  (* include/osmocom/ranap/RANAP_CN-InvokeTrace.h:25-39 *)
  ("RANAP_CN_InvokeTrace", [CM "cN_InvokeTrace_ies" false (CStruct "RANAP_CN_InvokeTrace__cN_InvokeTrace_ies"); CM "_asn_ctx" false (CName "asn_struct_ctx_t")]);
  (* include/osmocom/ranap/RANAP_CNMBMSLinkingInformation.h:24-34 *)
  ("RANAP_CNMBMSLinkingInformation", [CM "joinedMBMSBearerService_IEs" false (CName "RANAP_JoinedMBMSBearerService_IEs_t"); CM "iE_Extensions" true (CName "RANAP_ProtocolExtensionContainer_t"); CM "_asn_ctx" false (CName "asn_struct_ctx_t")]);
  (* include/osmocom/ranap/RANAP_CSG-Id-List.h:24-29 *)
  ("RANAP_CSG_Id_List", [CM "list" false (CList (CName "RANAP_CSG_Id_t")); CM "_asn_ctx" false (CName "asn_struct_ctx_t")]);
  (* include/osmocom/ranap/RANAP_Cause.h:42-60 *)
  ("RANAP_Cause", [CM "present" false (CName "RANAP_Cause_PR"); CM "choice" false (CUnion "RANAP_Cause_u"); CM "_asn_ctx" false (CName "asn_struct_ctx_t")]);
  (* include/osmocom/ranap/RANAP_CellBased.h:24-34 *)
  ("RANAP_CellBased", [CM "cellIdList" false (CName "RANAP_CellIdList_t"); CM "iE_Extensions" true (CName "RANAP_IE_Extensions_t"); CM "_asn_ctx" false (CName "asn_struct_ctx_t")]);
  (* include/osmocom/ranap/RANAP_CellIdList.h:24-29 *)
  ("RANAP_CellIdList", [CM "list" false (CList (CName "RANAP_Cell_Id_t")); CM "_asn_ctx" false (CName "asn_struct_ctx_t")]);
  (* include/osmocom/ranap/RANAP_CellLoadInformation.h:27-40 *)
  ("RANAP_CellLoadInformation", [CM "cell_Capacity_Class_Value" false (CName "RANAP_Cell_Capacity_Class_Value_t"); CM "loadValue" false (CName "RANAP_LoadValue_t"); CM "rTLoadValue" true (CName "RANAP_RTLoadValue_t"); CM "nRTLoadInformationValue" true (CName "RANAP_NRTLoadInformationValue_t"); CM "iE_Extensions" true (CName "RANAP_IE_Extensions_t"); CM "_asn_ctx" false (CName "asn_struct_ctx_t")]);
  (* include/osmocom/ranap/RANAP_CellLoadInformationGroup.h:25-37 *)
  ("RANAP_CellLoadInformationGroup", [CM "sourceCellID" false (CName "RANAP_SourceCellID_t"); CM "uplinkCellLoadInformation" true (CName "RANAP_CellLoadInformation_t"); CM "downlinkCellLoadInformation" true (CName "RANAP_CellLoadInformation_t"); CM "iE_Extensions" true (CName "RANAP_IE_Extensions_t"); CM "_asn_ctx" false (CName "asn_struct_ctx_t")]);
  (* include/osmocom/ranap/RANAP_CommonID.h:25-39 *)
  ("RANAP_CommonID__commonID_ies", [CM "list" false (CList (CName "RANAP_IE_t")); CM "_asn_ctx" false (CName "asn_struct_ctx_t")]);
  (* include/osmocom/ranap/RANAP_CommonID.h:25-39 *)
  ("RANAP_CommonID", [CM "commonID_ies" false (CStruct "RANAP_CommonID__commonID_ies"); CM "_asn_ctx" false (CName "asn_struct_ctx_t")]);
  (* include/osmocom/ranap/RANAP_CriticalityDiagnostics-IE-List-Value.h:26-38 *)
  ("RANAP_CriticalityDiagnostics_IE_List_Value", [CM "iECriticality" false (CName "RANAP_Criticality_t"); CM "iE_ID" false (CName "RANAP_ProtocolIE_ID_t"); CM "repetitionNumber" true (CName "RANAP_RepetitionNumber0_t"); CM "iE_Extensions" true (CName "RANAP_IE_Extensions_t"); CM "_asn_ctx" false (CName "asn_struct_ctx_t")]);
  (* include/osmocom/ranap/RANAP_CriticalityDiagnostics-IE-List.h:24-29 *)
  ("RANAP_CriticalityDiagnostics_IE_List", [CM "list" false (CList (CName "RANAP_CriticalityDiagnostics_IE_List_Value_t")); CM "_asn_ctx" false (CName "asn_struct_ctx_t")]);
  (* include/osmocom/ranap/RANAP_CriticalityDiagnostics.h:27-40 *)
  ("RANAP_CriticalityDiagnostics", [CM "procedureCode" true (CName "RANAP_ProcedureCode_t"); CM "triggeringMessage" true (CName "RANAP_TriggeringMessage_t"); CM "procedureCriticality" true (CName "RANAP_Criticality_t"); CM "iEsCriticalityDiagnostics" true (CName "RANAP_CriticalityDiagnostics_IE_List_t"); CM "iE_Extensions" true (CName "RANAP_IE_Extensions_t"); CM "_asn_ctx" false (CName "asn_struct_ctx_t")]);
  (* include/osmocom/ranap/RANAP_DataVolumeList-Value.h:25-36 *)
  ("RANAP_DataVolumeList_Value", [CM "dl_UnsuccessfullyTransmittedDataVolume" false (CName "RANAP_UnsuccessfullyTransmittedDataVolume_t"); CM "dataVolumeReference" true (CName "RANAP_DataVolumeReference_t"); CM "iE_Extensions" true (CName "RANAP_ProtocolExtensionContainer_t"); CM "_asn_ctx" false (CName "asn_struct_ctx_t")]);
  (* include/osmocom/ranap/RANAP_DataVolumeList.h:24-29 *)
  ("RANAP_DataVolumeList", [CM "list" false (CList (CName "RANAP_DataVolumeList_Value_t")); CM "_asn_ctx" false (CName "asn_struct_ctx_t")]);
  (* include/osmocom/ranap/RANAP_DataVolumeReport.h:25-39 *)
  ("RANAP_DataVolumeReport__dataVolumeReport_ies", [CM "list" false (CList (CName "RANAP_IE_t")); CM "_asn_ctx" false (CName "asn_struct_ctx_t")]);
  (* include/osmocom/ranap/RANAP_DataVolumeReport.h:25-39 *)
  ("RANAP_DataVolumeReport", [CM "dataVolumeReport_ies" false (CStruct "RANAP_DataVolumeReport__dataVolumeReport_ies"); CM "_asn_ctx" false (CName "asn_struct_ctx_t")]);
  (* include/osmocom/ranap/RANAP_DataVolumeReportList.h:25-39 *)
  ("RANAP_DataVolumeReportList__dataVolumeReportListe_ies", [CM "list" false (CList (CName "RANAP_IE_t")); CM "_asn_ctx" false (CName "asn_struct_ctx_t")]);
  (* include/osmocom/ranap/RANAP_DataVolumeReportList.h:25-39 *)
  ("RANAP_DataVolumeReportList", [CM "dataVolumeReportListe_ies" false (CStruct "RANAP_DataVolumeReportList__dataVolumeReportListe_ies"); CM "_asn_ctx" false (CName "asn_struct_ctx_t")]);
  (* include/osmocom/ranap/RANAP_DataVolumeReportRequest.h:25-39 *)
  ("RANAP_DataVolumeReportRequest__dataVolumeReportRequest_ies", [CM "list" false (CList (CName "RANAP_IE_t")); CM "_asn_ctx" false (CName "asn_struct_ctx_t")]);
  (* include/osmocom/ranap/RANAP_DataVolumeReportRequest.h:25-39 *)
  ("RANAP_DataVolumeReportRequest", [CM "dataVolumeReportRequest_ies" false (CStruct "RANAP_DataVolumeReportRequest__dataVolumeReportRequest_ies"); CM "_asn_ctx" false (CName "asn_struct_ctx_t")]);
  (* include/osmocom/ranap/RANAP_DeltaRAListofIdleModeUEs.h:25-32 *)
  ("RANAP_DeltaRAListofIdleModeUEs", [CM "newRAListofIdleModeUEs" true (CName "RANAP_NewRAListofIdleModeUEs_t"); CM "rAListwithNoIdleModeUEsAnyMore" true (CName "RANAP_RAListwithNoIdleModeUEsAnyMore_t"); CM "iE_Extensions" true (CName "RANAP_IE_Extensions_t"); CM "_asn_ctx" false (CName "asn_struct_ctx_t")]);
  (* include/osmocom/ranap/RANAP_DirectInformationTransfer.h:25-39 *)
  ("RANAP_DirectInformationTransfer__directInformationTransfer_ies", [CM "list" false (CList (CName "RANAP_IE_t")); CM "_asn_ctx" false (CName "asn_struct_ctx_t")]);
  (* include/osmocom/ranap/RANAP_DirectInformationTransfer.h:25-39 *)
  ("RANAP_DirectInformationTransfer", [CM "directInformationTransfer_ies" false (CStruct "RANAP_DirectInformationTransfer__directInformationTransfer_ies"); CM "_asn_ctx" false (CName "asn_struct_ctx_t")]);
  (* include/osmocom/ranap/RANAP_DirectTransfer-IE-ContainerList.h:24-29 *)
  ("RANAP_DirectTransfer_IE_ContainerList", [CM "list" false (CList (CName "RANAP_ProtocolIE_Container_t")); CM "_asn_ctx" false (CName "asn_struct_ctx_t")]);
  (* include/osmocom/ranap/RANAP_DirectTransfer.h:25-39 *)
  ("RANAP_DirectTransfer__directTransfer_ies", [CM "list" false (CList (CName "RANAP_IE_t")); CM "_asn_ctx" false (CName "asn_struct_ctx_t")]);
  (* include/osmocom/ranap/RANAP_DirectTransfer.h:25-39 *)
  ("RANAP_DirectTransfer", [CM "directTransfer_ies" false (CStruct "RANAP_DirectTransfer__directTransfer_ies"); CM "_asn_ctx" false (CName "asn_struct_ctx_t")]);
  (* include/osmocom/ranap/RANAP_DirectTransferInformationItem-RANAP-RelocInf.h:26-38 *)
  ("RANAP_DirectTransferInformationItem_RANAP_RelocInf", [CM "nAS_PDU" false (CName "RANAP_NAS_PDU_t"); CM "sAPI" false (CName "RANAP_SAPI_t"); CM "cN_DomainIndicator" false (CName "RANAP_CN_DomainIndicator_t"); CM "iE_Extensions" true (CName "RANAP_ProtocolExtensionContainer_t"); CM "_asn_ctx" false (CName "asn_struct_ctx_t")]);
  (* include/osmocom/ranap/RANAP_ENB-ID.h:32-45 *)
  ("RANAP_ENB_ID", [CM "present" false (CName "RANAP_ENB_ID_PR"); CM "choice" false (CUnion "RANAP_ENB_ID_u"); CM "_asn_ctx" false (CName "asn_struct_ctx_t")]);
  (* include/osmocom/ranap/RANAP_EUTRANFrequencies-Value.h:25-32 *)
  ("RANAP_EUTRANFrequencies_Value", [CM "earfcn" false (CName "long"); CM "measBand" true (CName "RANAP_MeasBand_t"); CM "iE_Extensions" true (CName "RANAP_IE_Extensions_t"); CM "_asn_ctx" false (CName "asn_struct_ctx_t")]);
  (* include/osmocom/ranap/RANAP_EUTRANFrequencies.h:24-29 *)
  ("RANAP_EUTRANFrequencies", [CM "list" false (CList (CName "RANAP_EUTRANFrequencies_Value_t")); CM "_asn_ctx" false (CName "asn_struct_ctx_t")]);
  (* include/osmocom/ranap/RANAP_EncryptionInformation.h:25-32 *)
  ("RANAP_EncryptionInformation", [CM "permittedAlgorithms" false (CName "RANAP_PermittedEncryptionAlgorithms_t"); CM "key" false (CName "RANAP_EncryptionKey_t"); CM "iE_Extensions" true (CName "RANAP_IE_Extensions_t"); CM "_asn_ctx" false (CName "asn_struct_ctx_t")]);
  (* include/osmocom/ranap/RANAP_EnhancedRelocationCompleteConfirm.h:25-39 *)
  ("RANAP_EnhancedRelocationCompleteConfirm__enhancedRelocationCompleteConfirm_ies", [CM "list" false (CList (CName "RANAP_IE_t")); CM "_asn_ctx" false (CName "asn_struct_ctx_t")]);
  (* include/osmocom/ranap/RANAP_EnhancedRelocationCompleteConfirm.h:25-39 *)
  ("RANAP_EnhancedRelocationCompleteConfirm", [CM "enhancedRelocationCompleteConfirm_ies" false (CStruct "RANAP_EnhancedRelocationCompleteConfirm__enhancedRelocationCompleteConfirm_ies"); CM "_asn_ctx" false (CName "asn_struct_ctx_t")]);
  (* include/osmocom/ranap/RANAP_EnhancedRelocationCompleteFailure.h:25-39 *)
  ("RANAP_EnhancedRelocationCompleteFailure__enhancedRelocationCompleteFailure_ies", [CM "list" false (CList (CName "RANAP_IE_t")); CM "_asn_ctx" false (CName "asn_struct_ctx_t")]);
  (* include/osmocom/ranap/RANAP_EnhancedRelocationCompleteFailure.h:25-39 *)
  ("RANAP_EnhancedRelocationCompleteFailure", [CM "enhancedRelocationCompleteFailure_ies" false (CStruct "RANAP_EnhancedRelocationCompleteFailure__enhancedRelocationCompleteFailure_ies"); CM "_asn_ctx" false (CName "asn_struct_ctx_t")]);
  (* include/osmocom/ranap/RANAP_EnhancedRelocationCompleteRequest.h:25-39 *)
  ("RANAP_EnhancedRelocationCompleteRequest__enhancedRelocationCompleteRequest_ies", [CM "list" false (CList (CName "RANAP_IE_t")); CM "_asn_ctx" false (CName "asn_struct_ctx_t")]);
  (* include/osmocom/ranap/RANAP_EnhancedRelocationCompleteRequest.h:25-39 *)
  ("RANAP_EnhancedRelocationCompleteRequest", [CM "enhancedRelocationCompleteRequest_ies" false (CStruct "RANAP_EnhancedRelocationCompleteRequest__enhancedRelocationCompleteRequest_ies"); CM "_asn_ctx" false (CName "asn_struct_ctx_t")]);
  (* include/osmocom/ranap/RANAP_EnhancedRelocationCompleteResponse.h:25-39 *)
  ("RANAP_EnhancedRelocationCompleteResponse__enhancedRelocationCompleteResponse_ies", [CM "list" false (CList (CName "RANAP_IE_t")); CM "_asn_ctx" false (CName "asn_struct_ctx_t")]);
  (* include/osmocom/ranap/RANAP_EnhancedRelocationCompleteResponse.h:25-39 *)
  ("RANAP_EnhancedRelocationCompleteResponse", [CM "enhancedRelocationCompleteResponse_ies" false (CStruct "RANAP_EnhancedRelocationCompleteResponse__enhancedRelocationCompleteResponse_ies"); CM "_asn_ctx" false (CName "asn_struct_ctx_t")]);
  (* include/osmocom/ranap/RANAP_EquipmentsToBeTraced.h:37-52 *)
  ("RANAP_EquipmentsToBeTraced", [CM "present" false (CName "RANAP_EquipmentsToBeTraced_PR"); CM "choice" false (CUnion "RANAP_EquipmentsToBeTraced_u"); CM "_asn_ctx" false (CName "asn_struct_ctx_t")]);
  (* include/osmocom/ranap/RANAP_ErrorIndication.h:25-39 *)
  ("RANAP_ErrorIndication__errorIndication_ies", [CM "list" false (CList (CName "RANAP_IE_t")); CM "_asn_ctx" false (CName "asn_struct_ctx_t")]);
  (* include/osmocom/ranap/RANAP_ErrorIndication.h:25-39 *)
  ("RANAP_ErrorIndication", [CM "errorIndication_ies" false (CStruct "RANAP_ErrorIndication__errorIndication_ies"); CM "_asn_ctx" false (CName "asn_struct_ctx_t")]);
  (* include/osmocom/ranap/RANAP_Event1F-Parameters.h:24-34 *)
  ("RANAP_Event1F_Parameters", [CM "measurementQuantity" false (CName "RANAP_MeasurementQuantity_t"); CM "threshold" false (CName "long"); CM "_asn_ctx" false (CName "asn_struct_ctx_t")]);
  (* include/osmocom/ranap/RANAP_Event1I-Parameters.h:23-32 *)
  ("RANAP_Event1I_Parameters", [CM "threshold" false (CName "long"); CM "_asn_ctx" false (CName "asn_struct_ctx_t")]);
  (* include/osmocom/ranap/RANAP_ForwardSRNS-Context.h:25-39 *)
  ("RANAP_ForwardSRNS_Context__forwardSRNS_Context_ies", [CM "list" false (CList (CName "RANAP_IE_t")); CM "_asn_ctx" false (CName "asn_struct_ctx_t")]);
  (* include/osmocom/ranap/RANAP_ForwardSRNS-Context.h:25-39 *)
  ("RANAP_ForwardSRNS_Context", [CM "forwardSRNS_Context_ies" false (CStruct "RANAP_ForwardSRNS_Context__forwardSRNS_Context_ies"); CM "_asn_ctx" false (CName "asn_struct_ctx_t")]);
  (* include/osmocom/ranap/RANAP_GA-AltitudeAndDirection.h:30-40 *)
  ("RANAP_GA_AltitudeAndDirection", [CM "directionOfAltitude" false (CName "long"); CM "altitude" false (CName "long"); CM "_asn_ctx" false (CName "asn_struct_ctx_t")]);
  (* include/osmocom/ranap/RANAP_GA-EllipsoidArc.h:25-40 *)
  ("RANAP_GA_EllipsoidArc", [CM "geographicalCoordinates" false (CName "RANAP_GeographicalCoordinates_t"); CM "innerRadius" false (CName "long"); CM "uncertaintyRadius" false (CName "long"); CM "offsetAngle" false (CName "long"); CM "includedAngle" false (CName "long"); CM "confidence" false (CName "long"); CM "iE_Extensions" true (CName "RANAP_IE_Extensions_t"); CM "_asn_ctx" false (CName "asn_struct_ctx_t")]);
  (* include/osmocom/ranap/RANAP_GA-Point.h:24-34 *)
  ("RANAP_GA_Point", [CM "geographicalCoordinates" false (CName "RANAP_GeographicalCoordinates_t"); CM "iE_Extensions" true (CName "RANAP_IE_Extensions_t"); CM "_asn_ctx" false (CName "asn_struct_ctx_t")]);
  (* include/osmocom/ranap/RANAP_GA-PointWithAltitude.h:25-36 *)
  ("RANAP_GA_PointWithAltitude", [CM "geographicalCoordinates" false (CName "RANAP_GeographicalCoordinates_t"); CM "altitudeAndDirection" false (CName "RANAP_GA_AltitudeAndDirection_t"); CM "iE_Extensions" true (CName "RANAP_IE_Extensions_t"); CM "_asn_ctx" false (CName "asn_struct_ctx_t")]);
  (* include/osmocom/ranap/RANAP_GA-PointWithAltitudeAndUncertaintyEllipsoid.h:27-41 *)
  ("RANAP_GA_PointWithAltitudeAndUncertaintyEllipsoid", [CM "geographicalCoordinates" false (CName "RANAP_GeographicalCoordinates_t"); CM "altitudeAndDirection" false (CName "RANAP_GA_AltitudeAndDirection_t"); CM "uncertaintyEllipse" false (CName "RANAP_GA_UncertaintyEllipse_t"); CM "uncertaintyAltitude" false (CName "long"); CM "confidence" false (CName "long"); CM "iE_Extensions" true (CName "RANAP_IE_Extensions_t"); CM "_asn_ctx" false (CName "asn_struct_ctx_t")]);
  (* include/osmocom/ranap/RANAP_GA-PointWithUnCertainty.h:25-32 *)
  ("RANAP_GA_PointWithUnCertainty", [CM "geographicalCoordinates" false (CName "RANAP_GeographicalCoordinates_t"); CM "iE_Extensions" true (CName "RANAP_IE_Extensions_t"); CM "uncertaintyCode" false (CName "long"); CM "_asn_ctx" false (CName "asn_struct_ctx_t")]);
  (* include/osmocom/ranap/RANAP_GA-PointWithUnCertaintyEllipse.h:26-38 *)
  ("RANAP_GA_PointWithUnCertaintyEllipse", [CM "geographicalCoordinates" false (CName "RANAP_GeographicalCoordinates_t"); CM "uncertaintyEllipse" false (CName "RANAP_GA_UncertaintyEllipse_t"); CM "confidence" false (CName "long"); CM "iE_Extensions" true (CName "RANAP_IE_Extensions_t"); CM "_asn_ctx" false (CName "asn_struct_ctx_t")]);
  (* include/osmocom/ranap/RANAP_GA-Polygon-Value.h:24-34 *)
  ("RANAP_GA_Polygon_Value", [CM "geographicalCoordinates" false (CName "RANAP_GeographicalCoordinates_t"); CM "iE_Extensions" true (CName "RANAP_IE_Extensions_t"); CM "_asn_ctx" false (CName "asn_struct_ctx_t")]);
  (* include/osmocom/ranap/RANAP_GA-Polygon.h:24-29 *)
  ("RANAP_GA_Polygon", [CM "list" false (CList (CName "RANAP_GA_Polygon_Value_t")); CM "_asn_ctx" false (CName "asn_struct_ctx_t")]);
  (* include/osmocom/ranap/RANAP_GA-UncertaintyEllipse.h:23-34 *)
  ("RANAP_GA_UncertaintyEllipse", [CM "uncertaintySemi_major" false (CName "long"); CM "uncertaintySemi_minor" false (CName "long"); CM "orientationOfMajorAxis" false (CName "long"); CM "_asn_ctx" false (CName "asn_struct_ctx_t")]);
  (* include/osmocom/ranap/RANAP_GANSS-PositioningDataSet.h:24-29 *)
  ("RANAP_GANSS_PositioningDataSet", [CM "list" false (CList (CName "RANAP_GANSS_PositioningMethodAndUsage_t")); CM "_asn_ctx" false (CName "asn_struct_ctx_t")]);
  (* include/osmocom/ranap/RANAP_GERAN-Cell-ID.h:26-34 *)
  ("RANAP_GERAN_Cell_ID", [CM "lAI" false (CName "RANAP_LAI_t"); CM "rAC" false (CName "RANAP_RAC_t"); CM "cI" false (CName "RANAP_CI_t"); CM "iE_Extensions" true (CName "RANAP_IE_Extensions_t"); CM "_asn_ctx" false (CName "asn_struct_ctx_t")]);
  (* include/osmocom/ranap/RANAP_GERAN-Iumode-RAB-Failed-RABAssgntResponse-Item.h:26-38 *)
  ("RANAP_GERAN_Iumode_RAB_Failed_RABAssgntResponse_Item", [CM "rAB_ID" false (CName "RANAP_RAB_ID_t"); CM "cause" false (CName "RANAP_Cause_t"); CM "gERAN_Classmark" true (CName "RANAP_GERAN_Classmark_t"); CM "iE_Extensions" true (CName "RANAP_ProtocolExtensionContainer_t"); CM "_asn_ctx" false (CName "asn_struct_ctx_t")]);
  (* include/osmocom/ranap/RANAP_GERAN-Iumode-RAB-Failed-RABAssgntResponse-List.h:25-39 *)
  ("RANAP_GERAN_Iumode_RAB_Failed_RABAssgntResponse_List__geraN_Iumode_RAB_Failed_RABAssgntResponse_List_ies", [CM "list" false (CList (CName "RANAP_IE_t")); CM "_asn_ctx" false (CName "asn_struct_ctx_t")]);
  (* include/osmocom/ranap/RANAP_GERAN-Iumode-RAB-Failed-RABAssgntResponse-List.h:25-39 *)
  ("RANAP_GERAN_Iumode_RAB_Failed_RABAssgntResponse_List", [CM "geraN_Iumode_RAB_Failed_RABAssgntResponse_List_ies" false (CStruct "RANAP_GERAN_Iumode_RAB_Failed_RABAssgntResponse_List__geraN_Iumode_RAB_Failed_RABAssgntResponse_List_ies"); CM "_asn_ctx" false (CName "asn_struct_ctx_t")]);
  (* include/osmocom/ranap/RANAP_GeographicalArea.h:42-60 *)
  ("RANAP_GeographicalArea", [CM "present" false (CName "RANAP_GeographicalArea_PR"); CM "choice" false (CUnion "RANAP_GeographicalArea_u"); CM "_asn_ctx" false (CName "asn_struct_ctx_t")]);
  (* include/osmocom/ranap/RANAP_GeographicalCoordinates.h:31-43 *)
  ("RANAP_GeographicalCoordinates", [CM "latitudeSign" false (CName "long"); CM "latitude" false (CName "long"); CM "longitude" false (CName "long"); CM "iE_Extensions" true (CName "RANAP_IE_Extensions_t"); CM "_asn_ctx" false (CName "asn_struct_ctx_t")]);
  (* include/osmocom/ranap/RANAP_GlobalCN-ID.h:24-30 *)
  ("RANAP_GlobalCN_ID", [CM "pLMNidentity" false (CName "RANAP_PLMNidentity_t"); CM "cN_ID" false (CName "RANAP_CN_ID_t"); CM "_asn_ctx" false (CName "asn_struct_ctx_t")]);
  (* include/osmocom/ranap/RANAP_GlobalRNC-ID.h:24-30 *)
  ("RANAP_GlobalRNC_ID", [CM "pLMNidentity" false (CName "RANAP_PLMNidentity_t"); CM "rNC_ID" false (CName "RANAP_RNC_ID_t"); CM "_asn_ctx" false (CName "asn_struct_ctx_t")]);
  (* include/osmocom/ranap/RANAP_HorizontalSpeedAndBearing.h:23-29 *)
  ("RANAP_HorizontalSpeedAndBearing", [CM "bearing" false (CName "long"); CM "horizontalSpeed" false (CName "long"); CM "_asn_ctx" false (CName "asn_struct_ctx_t")]);
  (* include/osmocom/ranap/RANAP_HorizontalVelocity.h:24-34 *)
  ("RANAP_HorizontalVelocity", [CM "horizontalSpeedAndBearing" false (CName "RANAP_HorizontalSpeedAndBearing_t"); CM "iE_Extensions" true (CName "RANAP_IE_Extensions_t"); CM "_asn_ctx" false (CName "asn_struct_ctx_t")]);
  (* include/osmocom/ranap/RANAP_HorizontalVelocityWithUncertainty.h:25-36 *)
  ("RANAP_HorizontalVelocityWithUncertainty", [CM "horizontalSpeedAndBearing" false (CName "RANAP_HorizontalSpeedAndBearing_t"); CM "uncertaintySpeed" false (CName "long"); CM "iE_Extensions" true (CName "RANAP_IE_Extensions_t"); CM "_asn_ctx" false (CName "asn_struct_ctx_t")]);
  (* include/osmocom/ranap/RANAP_HorizontalWithVerticalVelocity.h:25-36 *)
  ("RANAP_HorizontalWithVerticalVelocity", [CM "horizontalSpeedAndBearing" false (CName "RANAP_HorizontalSpeedAndBearing_t"); CM "veritcalVelocity" false (CName "RANAP_VerticalVelocity_t"); CM "iE_Extensions" true (CName "RANAP_IE_Extensions_t"); CM "_asn_ctx" false (CName "asn_struct_ctx_t")]);
  (* include/osmocom/ranap/RANAP_HorizontalWithVerticalVelocityAndUncertainty.h:26-39 *)
  ("RANAP_HorizontalWithVerticalVelocityAndUncertainty", [CM "horizontalSpeedAndBearing" false (CName "RANAP_HorizontalSpeedAndBearing_t"); CM "veritcalVelocity" false (CName "RANAP_VerticalVelocity_t"); CM "horizontalUncertaintySpeed" false (CName "long"); CM "verticalUncertaintySpeed" false (CName "long"); CM "iE_Extensions" true (CName "RANAP_IE_Extensions_t"); CM "_asn_ctx" false (CName "asn_struct_ctx_t")]);
  (* include/osmocom/ranap/RANAP_IE-Extensions.h:24-29 *)
  ("RANAP_IE_Extensions", [CM "list" false (CList (CName "RANAP_IE_t")); CM "_asn_ctx" false (CName "asn_struct_ctx_t")]);
  (* include/osmocom/ranap/RANAP_IE.h:25-32 *)
  ("RANAP_IE", [CM "id" false (CName "RANAP_ProtocolIE_ID_t"); CM "criticality" false (CName "RANAP_Criticality_t"); CM "value" false (CName "ANY_t"); CM "_asn_ctx" false (CName "asn_struct_ctx_t")]);
  (* include/osmocom/ranap/RANAP_IMEIGroup.h:25-32 *)
  ("RANAP_IMEIGroup", [CM "iMEI" false (CName "RANAP_IMEI_t"); CM "iMEIMask" false (CName "BIT_STRING_t"); CM "iE_Extensions" true (CName "RANAP_IE_Extensions_t"); CM "_asn_ctx" false (CName "asn_struct_ctx_t")]);
  (* include/osmocom/ranap/RANAP_IMEIList.h:24-29 *)
  ("RANAP_IMEIList", [CM "list" false (CList (CName "RANAP_IMEI_t")); CM "_asn_ctx" false (CName "asn_struct_ctx_t")]);
  (* include/osmocom/ranap/RANAP_IMEISVGroup.h:25-32 *)
  ("RANAP_IMEISVGroup", [CM "iMEISV" false (CName "RANAP_IMEISV_t"); CM "iMEISVMask" false (CName "BIT_STRING_t"); CM "iE_Extensions" true (CName "RANAP_IE_Extensions_t"); CM "_asn_ctx" false (CName "asn_struct_ctx_t")]);
  (* include/osmocom/ranap/RANAP_IMEISVList.h:24-29 *)
  ("RANAP_IMEISVList", [CM "list" false (CList (CName "RANAP_IMEISV_t")); CM "_asn_ctx" false (CName "asn_struct_ctx_t")]);
  (* include/osmocom/ranap/RANAP_IRAT-Measurement-Configuration.h:25-33 *)
  ("RANAP_IRAT_Measurement_Configuration", [CM "rSRP" true (CName "long"); CM "rSRQ" true (CName "long"); CM "iRATmeasurementParameters" false (CName "RANAP_IRATmeasurementParameters_t"); CM "iE_Extensions" true (CName "RANAP_IE_Extensions_t"); CM "_asn_ctx" false (CName "asn_struct_ctx_t")]);
  (* include/osmocom/ranap/RANAP_IRATmeasurementParameters.h:25-32 *)
  ("RANAP_IRATmeasurementParameters", [CM "measurementDuration" false (CName "long"); CM "eUTRANFrequencies" true (CName "RANAP_EUTRANFrequencies_t"); CM "iE_Extensions" true (CName "RANAP_IE_Extensions_t"); CM "_asn_ctx" false (CName "asn_struct_ctx_t")]);
  (* include/osmocom/ranap/RANAP_ImmediateMDT.h:26-38 *)
  ("RANAP_ImmediateMDT", [CM "measurementsToActivate" false (CName "RANAP_MeasurementsToActivate_t"); CM "m1report" true (CName "RANAP_M1Report_t"); CM "m2report" true (CName "RANAP_M2Report_t"); CM "iE_Extensions" true (CName "RANAP_IE_Extensions_t"); CM "_asn_ctx" false (CName "asn_struct_ctx_t")]);
  (* include/osmocom/ranap/RANAP_InformationRequestType.h:33-46 *)
  ("RANAP_InformationRequestType", [CM "present" false (CName "RANAP_InformationRequestType_PR"); CM "choice" false (CUnion "RANAP_InformationRequestType_u"); CM "_asn_ctx" false (CName "asn_struct_ctx_t")]);
  (* include/osmocom/ranap/RANAP_InformationRequested.h:33-46 *)
  ("RANAP_InformationRequested", [CM "present" false (CName "RANAP_InformationRequested_PR"); CM "choice" false (CUnion "RANAP_InformationRequested_u"); CM "_asn_ctx" false (CName "asn_struct_ctx_t")]);
  (* include/osmocom/ranap/RANAP_InformationTransferConfirmation.h:25-39 *)
  ("RANAP_InformationTransferConfirmation__informationTransferConfirmation_ies", [CM "list" false (CList (CName "RANAP_IE_t")); CM "_asn_ctx" false (CName "asn_struct_ctx_t")]);
  (* include/osmocom/ranap/RANAP_InformationTransferConfirmation.h:25-39 *)
  ("RANAP_InformationTransferConfirmation", [CM "informationTransferConfirmation_ies" false (CStruct "RANAP_InformationTransferConfirmation__informationTransferConfirmation_ies"); CM "_asn_ctx" false (CName "asn_struct_ctx_t")]);
  (* include/osmocom/ranap/RANAP_InformationTransferFailure.h:25-39 *)
  ("RANAP_InformationTransferFailure__informationTransferFailure_ies", [CM "list" false (CList (CName "RANAP_IE_t")); CM "_asn_ctx" false (CName "asn_struct_ctx_t")]);
  (* include/osmocom/ranap/RANAP_InformationTransferFailure.h:25-39 *)
  ("RANAP_InformationTransferFailure", [CM "informationTransferFailure_ies" false (CStruct "RANAP_InformationTransferFailure__informationTransferFailure_ies"); CM "_asn_ctx" false (CName "asn_struct_ctx_t")]);
  (* include/osmocom/ranap/RANAP_InformationTransferIndication.h:25-39 *)
  ("RANAP_InformationTransferIndication__informationTransferIndication_ies", [CM "list" false (CList (CName "RANAP_IE_t")); CM "_asn_ctx" false (CName "asn_struct_ctx_t")]);
  (* include/osmocom/ranap/RANAP_InformationTransferIndication.h:25-39 *)
  ("RANAP_InformationTransferIndication", [CM "informationTransferIndication_ies" false (CStruct "RANAP_InformationTransferIndication__informationTransferIndication_ies"); CM "_asn_ctx" false (CName "asn_struct_ctx_t")]);
  (* include/osmocom/ranap/RANAP_InformationTransferType.h:31-43 *)
  ("RANAP_InformationTransferType", [CM "present" false (CName "RANAP_InformationTransferType_PR"); CM "choice" false (CUnion "RANAP_InformationTransferType_u"); CM "_asn_ctx" false (CName "asn_struct_ctx_t")]);
  (* include/osmocom/ranap/RANAP_InitialUE-Message.h:25-39 *)
  ("RANAP_InitialUE_Message__initialUE_Message_ies", [CM "list" false (CList (CName "RANAP_IE_t")); CM "_asn_ctx" false (CName "asn_struct_ctx_t")]);
  (* include/osmocom/ranap/RANAP_InitialUE-Message.h:25-39 *)
  ("RANAP_InitialUE_Message", [CM "initialUE_Message_ies" false (CStruct "RANAP_InitialUE_Message__initialUE_Message_ies"); CM "_asn_ctx" false (CName "asn_struct_ctx_t")]);
  (* include/osmocom/ranap/RANAP_InitiatingMessage.h:25-32 *)
  ("RANAP_InitiatingMessage", [CM "procedureCode" false (CName "RANAP_ProcedureCode_t"); CM "criticality" false (CName "RANAP_Criticality_t"); CM "value" false (CName "ANY_t"); CM "_asn_ctx" false (CName "asn_struct_ctx_t")]);
  (* include/osmocom/ranap/RANAP_IntegrityProtectionInformation.h:25-32 *)
  ("RANAP_IntegrityProtectionInformation", [CM "permittedAlgorithms" false (CName "RANAP_PermittedIntegrityProtectionAlgorithms_t"); CM "key" false (CName "RANAP_IntegrityProtectionKey_t"); CM "iE_Extensions" true (CName "RANAP_IE_Extensions_t"); CM "_asn_ctx" false (CName "asn_struct_ctx_t")]);
  (* include/osmocom/ranap/RANAP_InterSystemInformation-TransparentContainer.h:24-35 *)
  ("RANAP_InterSystemInformation_TransparentContainer", [CM "downlinkCellLoadInformation" true (CName "RANAP_CellLoadInformation_t"); CM "uplinkCellLoadInformation" true (CName "RANAP_CellLoadInformation_t"); CM "iE_Extensions" true (CName "RANAP_IE_Extensions_t"); CM "_asn_ctx" false (CName "asn_struct_ctx_t")]);
  (* include/osmocom/ranap/RANAP_InterSystemInformationTransferType.h:31-43 *)
  ("RANAP_InterSystemInformationTransferType", [CM "present" false (CName "RANAP_InterSystemInformationTransferType_PR"); CM "choice" false (CUnion "RANAP_InterSystemInformationTransferType_u"); CM "_asn_ctx" false (CName "asn_struct_ctx_t")]);
  (* include/osmocom/ranap/RANAP_InterfacesToTraceItem.h:36-46 *)
  ("RANAP_InterfacesToTraceItem", [CM "interface" false (CName "long"); CM "iE_Extensions" true (CName "RANAP_IE_Extensions_t"); CM "_asn_ctx" false (CName "asn_struct_ctx_t")]);
  (* include/osmocom/ranap/RANAP_Iu-ReleaseCommand.h:25-39 *)
  ("RANAP_Iu_ReleaseCommand__iu_ReleaseCommand_ies", [CM "list" false (CList (CName "RANAP_IE_t")); CM "_asn_ctx" false (CName "asn_struct_ctx_t")]);
  (* include/osmocom/ranap/RANAP_Iu-ReleaseCommand.h:25-39 *)
  ("RANAP_Iu_ReleaseCommand", [CM "iu_ReleaseCommand_ies" false (CStruct "RANAP_Iu_ReleaseCommand__iu_ReleaseCommand_ies"); CM "_asn_ctx" false (CName "asn_struct_ctx_t")]);
  (* include/osmocom/ranap/RANAP_Iu-ReleaseComplete.h:25-39 *)
  ("RANAP_Iu_ReleaseComplete__iu_ReleaseComplete_ies", [CM "list" false (CList (CName "RANAP_IE_t")); CM "_asn_ctx" false (CName "asn_struct_ctx_t")]);
  (* include/osmocom/ranap/RANAP_Iu-ReleaseComplete.h:25-39 *)
  ("RANAP_Iu_ReleaseComplete", [CM "iu_ReleaseComplete_ies" false (CStruct "RANAP_Iu_ReleaseComplete__iu_ReleaseComplete_ies"); CM "_asn_ctx" false (CName "asn_struct_ctx_t")]);
  (* include/osmocom/ranap/RANAP_Iu-ReleaseRequest.h:25-39 *)
  ("RANAP_Iu_ReleaseRequest__iu_ReleaseRequest_ies", [CM "list" false (CList (CName "RANAP_IE_t")); CM "_asn_ctx" false (CName "asn_struct_ctx_t")]);
  (* include/osmocom/ranap/RANAP_Iu-ReleaseRequest.h:25-39 *)
  ("RANAP_Iu_ReleaseRequest", [CM "iu_ReleaseRequest_ies" false (CStruct "RANAP_Iu_ReleaseRequest__iu_ReleaseRequest_ies"); CM "_asn_ctx" false (CName "asn_struct_ctx_t")]);
  (* include/osmocom/ranap/RANAP_IuSigConId-IE-ContainerList.h:24-29 *)
  ("RANAP_IuSigConId_IE_ContainerList", [CM "list" false (CList (CName "RANAP_ProtocolIE_Container_t")); CM "_asn_ctx" false (CName "asn_struct_ctx_t")]);
  (* include/osmocom/ranap/RANAP_IuTransportAssociation.h:33-46 *)
  ("RANAP_IuTransportAssociation", [CM "present" false (CName "RANAP_IuTransportAssociation_PR"); CM "choice" false (CUnion "RANAP_IuTransportAssociation_u"); CM "_asn_ctx" false (CName "asn_struct_ctx_t")]);
  (* include/osmocom/ranap/RANAP_JoinedMBMSBearerService-IEs-Value.h:25-36 *)
  ("RANAP_JoinedMBMSBearerService_IEs_Value", [CM "tMGI" false (CName "RANAP_TMGI_t"); CM "mBMS_PTP_RAB_ID" false (CName "RANAP_MBMS_PTP_RAB_ID_t"); CM "iE_Extensions" true (CName "RANAP_ProtocolExtensionContainer_t"); CM "_asn_ctx" false (CName "asn_struct_ctx_t")]);
  (* include/osmocom/ranap/RANAP_JoinedMBMSBearerService-IEs.h:24-29 *)
  ("RANAP_JoinedMBMSBearerService_IEs", [CM "list" false (CList (CName "RANAP_JoinedMBMSBearerService_IEs_Value_t")); CM "_asn_ctx" false (CName "asn_struct_ctx_t")]);
  (* include/osmocom/ranap/RANAP_LA-LIST-Value.h:25-36 *)
  ("RANAP_LA_LIST_Value", [CM "lAC" false (CName "RANAP_LAC_t"); CM "listOF_SNAs" false (CName "RANAP_ListOF_SNAs_t"); CM "iE_Extensions" true (CName "RANAP_IE_Extensions_t"); CM "_asn_ctx" false (CName "asn_struct_ctx_t")]);
  (* include/osmocom/ranap/RANAP_LA-LIST.h:24-29 *)
  ("RANAP_LA_LIST", [CM "list" false (CList (CName "RANAP_LA_LIST_Value_t")); CM "_asn_ctx" false (CName "asn_struct_ctx_t")]);
  (* include/osmocom/ranap/RANAP_LABased.h:24-34 *)
  ("RANAP_LABased", [CM "laiList" false (CName "RANAP_LAI_List_t"); CM "iE_Extensions" true (CName "RANAP_IE_Extensions_t"); CM "_asn_ctx" false (CName "asn_struct_ctx_t")]);
  (* include/osmocom/ranap/RANAP_LAI-List.h:24-29 *)
  ("RANAP_LAI_List", [CM "list" false (CList (CName "RANAP_LAI_t")); CM "_asn_ctx" false (CName "asn_struct_ctx_t")]);
  (* include/osmocom/ranap/RANAP_LAI.h:25-32 *)
  ("RANAP_LAI", [CM "pLMNidentity" false (CName "RANAP_PLMNidentity_t"); CM "lAC" false (CName "RANAP_LAC_t"); CM "iE_Extensions" true (CName "RANAP_IE_Extensions_t"); CM "_asn_ctx" false (CName "asn_struct_ctx_t")]);
  (* include/osmocom/ranap/RANAP_LAListofIdleModeUEs.h:24-29 *)
  ("RANAP_LAListofIdleModeUEs", [CM "list" false (CList (CName "RANAP_LAI_t")); CM "_asn_ctx" false (CName "asn_struct_ctx_t")]);
  (* include/osmocom/ranap/RANAP_LastKnownServiceArea.h:25-36 *)
  ("RANAP_LastKnownServiceArea", [CM "sAI" false (CName "RANAP_SAI_t"); CM "ageOfSAI" false (CName "long"); CM "iE_Extensions" true (CName "RANAP_IE_Extensions_t"); CM "_asn_ctx" false (CName "asn_struct_ctx_t")]);
  (* include/osmocom/ranap/RANAP_LastVisitedUTRANCell-Item.h:26-38 *)
  ("RANAP_LastVisitedUTRANCell_Item", [CM "uTRAN_CellID" false (CName "RANAP_UTRAN_CellID_t"); CM "cellType" false (CName "RANAP_CellType_t"); CM "time_UE_StayedInCell" false (CName "RANAP_Time_UE_StayedInCell_t"); CM "iE_Extensions" true (CName "RANAP_IE_Extensions_t"); CM "_asn_ctx" false (CName "asn_struct_ctx_t")]);
  (* include/osmocom/ranap/RANAP_LeftMBMSBearerService-IEs-Value.h:24-34 *)
  ("RANAP_LeftMBMSBearerService_IEs_Value", [CM "tMGI" false (CName "RANAP_TMGI_t"); CM "iE_Extensions" true (CName "RANAP_ProtocolExtensionContainer_t"); CM "_asn_ctx" false (CName "asn_struct_ctx_t")]);
  (* include/osmocom/ranap/RANAP_LeftMBMSBearerService-IEs.h:24-29 *)
  ("RANAP_LeftMBMSBearerService_IEs", [CM "list" false (CList (CName "RANAP_LeftMBMSBearerService_IEs_Value_t")); CM "_asn_ctx" false (CName "asn_struct_ctx_t")]);
  (* include/osmocom/ranap/RANAP_ListOF-SNAs.h:24-29 *)
  ("RANAP_ListOF_SNAs", [CM "list" false (CList (CName "RANAP_SNAC_t")); CM "_asn_ctx" false (CName "asn_struct_ctx_t")]);
  (* include/osmocom/ranap/RANAP_ListOfInterfacesToTrace.h:24-29 *)
  ("RANAP_ListOfInterfacesToTrace", [CM "list" false (CList (CName "RANAP_InterfacesToTraceItem_t")); CM "_asn_ctx" false (CName "asn_struct_ctx_t")]);
  (* include/osmocom/ranap/RANAP_LocationRelatedDataFailure.h:25-39 *)
  ("RANAP_LocationRelatedDataFailure__locationRelatedDataFailure_ies", [CM "list" false (CList (CName "RANAP_IE_t")); CM "_asn_ctx" false (CName "asn_struct_ctx_t")]);
  (* include/osmocom/ranap/RANAP_LocationRelatedDataFailure.h:25-39 *)
  ("RANAP_LocationRelatedDataFailure", [CM "locationRelatedDataFailure_ies" false (CStruct "RANAP_LocationRelatedDataFailure__locationRelatedDataFailure_ies"); CM "_asn_ctx" false (CName "asn_struct_ctx_t")]);
  (* include/osmocom/ranap/RANAP_LocationRelatedDataRequest.h:25-39 *)
  ("RANAP_LocationRelatedDataRequest__locationRelatedDataRequest_ies", [CM "list" false (CList (CName "RANAP_IE_t")); CM "_asn_ctx" false (CName "asn_struct_ctx_t")]);
  (* include/osmocom/ranap/RANAP_LocationRelatedDataRequest.h:25-39 *)
  ("RANAP_LocationRelatedDataRequest", [CM "locationRelatedDataRequest_ies" false (CStruct "RANAP_LocationRelatedDataRequest__locationRelatedDataRequest_ies"); CM "_asn_ctx" false (CName "asn_struct_ctx_t")]);
  (* include/osmocom/ranap/RANAP_LocationRelatedDataRequestType.h:24-34 *)
  ("RANAP_LocationRelatedDataRequestType", [CM "requestedLocationRelatedDataType" false (CName "RANAP_RequestedLocationRelatedDataType_t"); CM "requestedGPSAssistanceData" true (CName "RANAP_RequestedGPSAssistanceData_t"); CM "_asn_ctx" false (CName "asn_struct_ctx_t")]);
  (* include/osmocom/ranap/RANAP_LocationRelatedDataResponse.h:25-39 *)
  ("RANAP_LocationRelatedDataResponse__locationRelatedDataResponse_ies", [CM "list" false (CList (CName "RANAP_IE_t")); CM "_asn_ctx" false (CName "asn_struct_ctx_t")]);
  (* include/osmocom/ranap/RANAP_LocationRelatedDataResponse.h:25-39 *)
  ("RANAP_LocationRelatedDataResponse", [CM "locationRelatedDataResponse_ies" false (CStruct "RANAP_LocationRelatedDataResponse__locationRelatedDataResponse_ies"); CM "_asn_ctx" false (CName "asn_struct_ctx_t")]);
  (* include/osmocom/ranap/RANAP_LocationReport.h:25-39 *)
  ("RANAP_LocationReport__locationReport_ies", [CM "list" false (CList (CName "RANAP_IE_t")); CM "_asn_ctx" false (CName "asn_struct_ctx_t")]);
  (* include/osmocom/ranap/RANAP_LocationReport.h:25-39 *)
  ("RANAP_LocationReport", [CM "locationReport_ies" false (CStruct "RANAP_LocationReport__locationReport_ies"); CM "_asn_ctx" false (CName "asn_struct_ctx_t")]);
  (* include/osmocom/ranap/RANAP_LocationReportingControl.h:25-39 *)
  ("RANAP_LocationReportingControl__locationReportingControl_ies", [CM "list" false (CList (CName "RANAP_IE_t")); CM "_asn_ctx" false (CName "asn_struct_ctx_t")]);
  (* include/osmocom/ranap/RANAP_LocationReportingControl.h:25-39 *)
  ("RANAP_LocationReportingControl", [CM "locationReportingControl_ies" false (CStruct "RANAP_LocationReportingControl__locationReportingControl_ies"); CM "_asn_ctx" false (CName "asn_struct_ctx_t")]);
  (* include/osmocom/ranap/RANAP_LocationReportingTransferInformation.h:32-52 *)
  ("RANAP_LocationReportingTransferInformation", [CM "reportChangeOfSAI" true (CName "RANAP_ReportChangeOfSAI_t"); CM "periodicReportingIndicator" true (CName "RANAP_PeriodicReportingIndicator_t"); CM "directReportingIndicator" true (CName "RANAP_DirectReportingIndicator_t"); CM "verticalAccuracyCode" true (CName "RANAP_VerticalAccuracyCode_t"); CM "positioningPriorityChangeSAI" true (CName "RANAP_PositioningPriority_t"); CM "positioningPriorityDirect" true (CName "RANAP_PositioningPriority_t"); CM "clientTypePeriodic" true (CName "RANAP_ClientType_t"); CM "clientTypeDirect" true (CName "RANAP_ClientType_t"); CM "responseTime" true (CName "RANAP_ResponseTime_t"); CM "includeVelocity" true (CName "RANAP_IncludeVelocity_t"); CM "periodicLocationInfo" true (CName "RANAP_PeriodicLocationInfo_t"); CM "iE_Extensions" true (CName "RANAP_IE_Extensions_t"); CM "_asn_ctx" false (CName "asn_struct_ctx_t")]);
  (* include/osmocom/ranap/RANAP_LoggedMDT.h:25-36 *)
  ("RANAP_LoggedMDT", [CM "loggingInterval" false (CName "RANAP_LoggingInterval_t"); CM "loggingDuration" false (CName "RANAP_LoggingDuration_t"); CM "iE_Extensions" true (CName "RANAP_IE_Extensions_t"); CM "_asn_ctx" false (CName "asn_struct_ctx_t")]);
  (* include/osmocom/ranap/RANAP_M1Report.h:33-46 *)
  ("RANAP_M1Report", [CM "present" false (CName "RANAP_M1Report_PR"); CM "choice" false (CUnion "RANAP_M1Report_u"); CM "_asn_ctx" false (CName "asn_struct_ctx_t")]);
  (* include/osmocom/ranap/RANAP_M2Report.h:33-46 *)
  ("RANAP_M2Report", [CM "present" false (CName "RANAP_M2Report_PR"); CM "choice" false (CUnion "RANAP_M2Report_u"); CM "_asn_ctx" false (CName "asn_struct_ctx_t")]);
  (* include/osmocom/ranap/RANAP_M4-Collection-Parameters.h:25-36 *)
  ("RANAP_M4_Collection_Parameters", [CM "m4_period" false (CName "RANAP_M4_Period_t"); CM "m4_threshold" true (CName "RANAP_M4_Threshold_t"); CM "iE_Extensions" true (CName "RANAP_IE_Extensions_t"); CM "_asn_ctx" false (CName "asn_struct_ctx_t")]);
  (* include/osmocom/ranap/RANAP_M4Report.h:33-46 *)
  ("RANAP_M4Report", [CM "present" false (CName "RANAP_M4Report_PR"); CM "choice" false (CUnion "RANAP_M4Report_u"); CM "_asn_ctx" false (CName "asn_struct_ctx_t")]);
  (* include/osmocom/ranap/RANAP_M5Report.h:33-46 *)
  ("RANAP_M5Report", [CM "present" false (CName "RANAP_M5Report_PR"); CM "choice" false (CUnion "RANAP_M5Report_u"); CM "_asn_ctx" false (CName "asn_struct_ctx_t")]);
  (* include/osmocom/ranap/RANAP_M6Report.h:25-36 *)
  ("RANAP_M6Report", [CM "m6_period" false (CName "RANAP_M6_Period_t"); CM "m6_links_to_log" false (CName "RANAP_Links_to_log_t"); CM "iE_Extensions" true (CName "RANAP_IE_Extensions_t"); CM "_asn_ctx" false (CName "asn_struct_ctx_t")]);
  (* include/osmocom/ranap/RANAP_M7Report.h:25-36 *)
  ("RANAP_M7Report", [CM "m7_period" false (CName "RANAP_M7_Period_t"); CM "m7_links_to_log" false (CName "RANAP_Links_to_log_t"); CM "iE_Extensions" true (CName "RANAP_IE_Extensions_t"); CM "_asn_ctx" false (CName "asn_struct_ctx_t")]);
  (* include/osmocom/ranap/RANAP_MBMSCNDe-RegistrationRequest.h:25-39 *)
  ("RANAP_MBMSCNDe_RegistrationRequest__mbmscnDe_RegistrationRequest_ies", [CM "list" false (CList (CName "RANAP_IE_t")); CM "_asn_ctx" false (CName "asn_struct_ctx_t")]);
  (* include/osmocom/ranap/RANAP_MBMSCNDe-RegistrationRequest.h:25-39 *)
  ("RANAP_MBMSCNDe_RegistrationRequest", [CM "mbmscnDe_RegistrationRequest_ies" false (CStruct "RANAP_MBMSCNDe_RegistrationRequest__mbmscnDe_RegistrationRequest_ies"); CM "_asn_ctx" false (CName "asn_struct_ctx_t")]);
  (* include/osmocom/ranap/RANAP_MBMSCNDe-RegistrationResponse.h:25-39 *)
  ("RANAP_MBMSCNDe_RegistrationResponse__mbmscnDe_RegistrationResponse_ies", [CM "list" false (CList (CName "RANAP_IE_t")); CM "_asn_ctx" false (CName "asn_struct_ctx_t")]);
  (* include/osmocom/ranap/RANAP_MBMSCNDe-RegistrationResponse.h:25-39 *)
  ("RANAP_MBMSCNDe_RegistrationResponse", [CM "mbmscnDe_RegistrationResponse_ies" false (CStruct "RANAP_MBMSCNDe_RegistrationResponse__mbmscnDe_RegistrationResponse_ies"); CM "_asn_ctx" false (CName "asn_struct_ctx_t")]);
  (* include/osmocom/ranap/RANAP_MBMSIPMulticastAddressandAPNRequest.h:24-29 *)
  ("RANAP_MBMSIPMulticastAddressandAPNRequest", [CM "list" false (CList (CName "RANAP_TMGI_t")); CM "_asn_ctx" false (CName "asn_struct_ctx_t")]);
  (* include/osmocom/ranap/RANAP_MBMSIPMulticastAddressandAPNlist.h:26-38 *)
  ("RANAP_MBMSIPMulticastAddressandAPNlist", [CM "tMGI" false (CName "RANAP_TMGI_t"); CM "iPMulticastAddress" false (CName "RANAP_IPMulticastAddress_t"); CM "aPN" false (CName "RANAP_APN_t"); CM "iE_Extensions" true (CName "RANAP_IE_Extensions_t"); CM "_asn_ctx" false (CName "asn_struct_ctx_t")]);
  (* include/osmocom/ranap/RANAP_MBMSRABEstablishmentIndication.h:25-39 *)
  ("RANAP_MBMSRABEstablishmentIndication__mbmsrabEstablishmentIndication_ies", [CM "list" false (CList (CName "RANAP_IE_t")); CM "_asn_ctx" false (CName "asn_struct_ctx_t")]);
  (* include/osmocom/ranap/RANAP_MBMSRABEstablishmentIndication.h:25-39 *)
  ("RANAP_MBMSRABEstablishmentIndication", [CM "mbmsrabEstablishmentIndication_ies" false (CStruct "RANAP_MBMSRABEstablishmentIndication__mbmsrabEstablishmentIndication_ies"); CM "_asn_ctx" false (CName "asn_struct_ctx_t")]);
  (* include/osmocom/ranap/RANAP_MBMSRABRelease.h:25-39 *)
  ("RANAP_MBMSRABRelease__mbmsrabRelease_ies", [CM "list" false (CList (CName "RANAP_IE_t")); CM "_asn_ctx" false (CName "asn_struct_ctx_t")]);
  (* include/osmocom/ranap/RANAP_MBMSRABRelease.h:25-39 *)
  ("RANAP_MBMSRABRelease", [CM "mbmsrabRelease_ies" false (CStruct "RANAP_MBMSRABRelease__mbmsrabRelease_ies"); CM "_asn_ctx" false (CName "asn_struct_ctx_t")]);
  (* include/osmocom/ranap/RANAP_MBMSRABReleaseFailure.h:25-39 *)
  ("RANAP_MBMSRABReleaseFailure__mbmsrabReleaseFailure_ies", [CM "list" false (CList (CName "RANAP_IE_t")); CM "_asn_ctx" false (CName "asn_struct_ctx_t")]);
  (* include/osmocom/ranap/RANAP_MBMSRABReleaseFailure.h:25-39 *)
  ("RANAP_MBMSRABReleaseFailure", [CM "mbmsrabReleaseFailure_ies" false (CStruct "RANAP_MBMSRABReleaseFailure__mbmsrabReleaseFailure_ies"); CM "_asn_ctx" false (CName "asn_struct_ctx_t")]);
  (* include/osmocom/ranap/RANAP_MBMSRABReleaseRequest.h:25-39 *)
  ("RANAP_MBMSRABReleaseRequest__mbmsrabReleaseRequest_ies", [CM "list" false (CList (CName "RANAP_IE_t")); CM "_asn_ctx" false (CName "asn_struct_ctx_t")]);
  (* include/osmocom/ranap/RANAP_MBMSRABReleaseRequest.h:25-39 *)
  ("RANAP_MBMSRABReleaseRequest", [CM "mbmsrabReleaseRequest_ies" false (CStruct "RANAP_MBMSRABReleaseRequest__mbmsrabReleaseRequest_ies"); CM "_asn_ctx" false (CName "asn_struct_ctx_t")]);
  (* include/osmocom/ranap/RANAP_MBMSRegistrationFailure.h:25-39 *)
  ("RANAP_MBMSRegistrationFailure__mbmsRegistrationFailure_ies", [CM "list" false (CList (CName "RANAP_IE_t")); CM "_asn_ctx" false (CName "asn_struct_ctx_t")]);
  (* include/osmocom/ranap/RANAP_MBMSRegistrationFailure.h:25-39 *)
  ("RANAP_MBMSRegistrationFailure", [CM "mbmsRegistrationFailure_ies" false (CStruct "RANAP_MBMSRegistrationFailure__mbmsRegistrationFailure_ies"); CM "_asn_ctx" false (CName "asn_struct_ctx_t")]);
  (* include/osmocom/ranap/RANAP_MBMSRegistrationRequest.h:25-39 *)
  ("RANAP_MBMSRegistrationRequest__mbmsRegistrationRequest_ies", [CM "list" false (CList (CName "RANAP_IE_t")); CM "_asn_ctx" false (CName "asn_struct_ctx_t")]);
  (* include/osmocom/ranap/RANAP_MBMSRegistrationRequest.h:25-39 *)
  ("RANAP_MBMSRegistrationRequest", [CM "mbmsRegistrationRequest_ies" false (CStruct "RANAP_MBMSRegistrationRequest__mbmsRegistrationRequest_ies"); CM "_asn_ctx" false (CName "asn_struct_ctx_t")]);
  (* include/osmocom/ranap/RANAP_MBMSRegistrationResponse.h:25-39 *)
  ("RANAP_MBMSRegistrationResponse__mbmsRegistrationResponse_ies", [CM "list" false (CList (CName "RANAP_IE_t")); CM "_asn_ctx" false (CName "asn_struct_ctx_t")]);
  (* include/osmocom/ranap/RANAP_MBMSRegistrationResponse.h:25-39 *)
  ("RANAP_MBMSRegistrationResponse", [CM "mbmsRegistrationResponse_ies" false (CStruct "RANAP_MBMSRegistrationResponse__mbmsRegistrationResponse_ies"); CM "_asn_ctx" false (CName "asn_struct_ctx_t")]);
  (* include/osmocom/ranap/RANAP_MBMSSessionStart.h:25-39 *)
  ("RANAP_MBMSSessionStart__mbmsSessionStart_ies", [CM "list" false (CList (CName "RANAP_IE_t")); CM "_asn_ctx" false (CName "asn_struct_ctx_t")]);
  (* include/osmocom/ranap/RANAP_MBMSSessionStart.h:25-39 *)
  ("RANAP_MBMSSessionStart", [CM "mbmsSessionStart_ies" false (CStruct "RANAP_MBMSSessionStart__mbmsSessionStart_ies"); CM "_asn_ctx" false (CName "asn_struct_ctx_t")]);
  (* include/osmocom/ranap/RANAP_MBMSSessionStartFailure.h:25-39 *)
  ("RANAP_MBMSSessionStartFailure__mbmsSessionStartFailure_ies", [CM "list" false (CList (CName "RANAP_IE_t")); CM "_asn_ctx" false (CName "asn_struct_ctx_t")]);
  (* include/osmocom/ranap/RANAP_MBMSSessionStartFailure.h:25-39 *)
  ("RANAP_MBMSSessionStartFailure", [CM "mbmsSessionStartFailure_ies" false (CStruct "RANAP_MBMSSessionStartFailure__mbmsSessionStartFailure_ies"); CM "_asn_ctx" false (CName "asn_struct_ctx_t")]);
  (* include/osmocom/ranap/RANAP_MBMSSessionStartResponse.h:25-39 *)
  ("RANAP_MBMSSessionStartResponse__mbmsSessionStartResponse_ies", [CM "list" false (CList (CName "RANAP_IE_t")); CM "_asn_ctx" false (CName "asn_struct_ctx_t")]);
  (* include/osmocom/ranap/RANAP_MBMSSessionStartResponse.h:25-39 *)
  ("RANAP_MBMSSessionStartResponse", [CM "mbmsSessionStartResponse_ies" false (CStruct "RANAP_MBMSSessionStartResponse__mbmsSessionStartResponse_ies"); CM "_asn_ctx" false (CName "asn_struct_ctx_t")]);
  (* include/osmocom/ranap/RANAP_MBMSSessionStop.h:25-39 *)
  ("RANAP_MBMSSessionStop__mbmsSessionStop_ies", [CM "list" false (CList (CName "RANAP_IE_t")); CM "_asn_ctx" false (CName "asn_struct_ctx_t")]);
  (* include/osmocom/ranap/RANAP_MBMSSessionStop.h:25-39 *)
  ("RANAP_MBMSSessionStop", [CM "mbmsSessionStop_ies" false (CStruct "RANAP_MBMSSessionStop__mbmsSessionStop_ies"); CM "_asn_ctx" false (CName "asn_struct_ctx_t")]);
  (* include/osmocom/ranap/RANAP_MBMSSessionStopResponse.h:25-39 *)
  ("RANAP_MBMSSessionStopResponse__mbmsSessionStopResponse_ies", [CM "list" false (CList (CName "RANAP_IE_t")); CM "_asn_ctx" false (CName "asn_struct_ctx_t")]);
  (* include/osmocom/ranap/RANAP_MBMSSessionStopResponse.h:25-39 *)
  ("RANAP_MBMSSessionStopResponse", [CM "mbmsSessionStopResponse_ies" false (CStruct "RANAP_MBMSSessionStopResponse__mbmsSessionStopResponse_ies"); CM "_asn_ctx" false (CName "asn_struct_ctx_t")]);
  (* include/osmocom/ranap/RANAP_MBMSSessionUpdate.h:25-39 *)
  ("RANAP_MBMSSessionUpdate__mbmsSessionUpdate_ies", [CM "list" false (CList (CName "RANAP_IE_t")); CM "_asn_ctx" false (CName "asn_struct_ctx_t")]);
  (* include/osmocom/ranap/RANAP_MBMSSessionUpdate.h:25-39 *)
  ("RANAP_MBMSSessionUpdate", [CM "mbmsSessionUpdate_ies" false (CStruct "RANAP_MBMSSessionUpdate__mbmsSessionUpdate_ies"); CM "_asn_ctx" false (CName "asn_struct_ctx_t")]);
  (* include/osmocom/ranap/RANAP_MBMSSessionUpdateFailure.h:25-39 *)
  ("RANAP_MBMSSessionUpdateFailure__mbmsSessionUpdateFailure_ies", [CM "list" false (CList (CName "RANAP_IE_t")); CM "_asn_ctx" false (CName "asn_struct_ctx_t")]);
  (* include/osmocom/ranap/RANAP_MBMSSessionUpdateFailure.h:25-39 *)
  ("RANAP_MBMSSessionUpdateFailure", [CM "mbmsSessionUpdateFailure_ies" false (CStruct "RANAP_MBMSSessionUpdateFailure__mbmsSessionUpdateFailure_ies"); CM "_asn_ctx" false (CName "asn_struct_ctx_t")]);
  (* include/osmocom/ranap/RANAP_MBMSSessionUpdateResponse.h:25-39 *)
  ("RANAP_MBMSSessionUpdateResponse__mbmsSessionUpdateResponse_ies", [CM "list" false (CList (CName "RANAP_IE_t")); CM "_asn_ctx" false (CName "asn_struct_ctx_t")]);
  (* include/osmocom/ranap/RANAP_MBMSSessionUpdateResponse.h:25-39 *)
  ("RANAP_MBMSSessionUpdateResponse", [CM "mbmsSessionUpdateResponse_ies" false (CStruct "RANAP_MBMSSessionUpdateResponse__mbmsSessionUpdateResponse_ies"); CM "_asn_ctx" false (CName "asn_struct_ctx_t")]);
  (* include/osmocom/ranap/RANAP_MBMSSynchronisationInformation.h:26-38 *)
  ("RANAP_MBMSSynchronisationInformation", [CM "mBMSHCIndicator" false (CName "RANAP_MBMSHCIndicator_t"); CM "iPMulticastAddress" false (CName "RANAP_IPMulticastAddress_t"); CM "gTPDLTEID" false (CName "RANAP_GTP_TEI_t"); CM "iE_Extensions" true (CName "RANAP_ProtocolExtensionContainer_t"); CM "_asn_ctx" false (CName "asn_struct_ctx_t")]);
  (* include/osmocom/ranap/RANAP_MBMSUELinkingRequest.h:25-39 *)
  ("RANAP_MBMSUELinkingRequest__mbmsueLinkingRequest_ies", [CM "list" false (CList (CName "RANAP_IE_t")); CM "_asn_ctx" false (CName "asn_struct_ctx_t")]);
  (* include/osmocom/ranap/RANAP_MBMSUELinkingRequest.h:25-39 *)
  ("RANAP_MBMSUELinkingRequest", [CM "mbmsueLinkingRequest_ies" false (CStruct "RANAP_MBMSUELinkingRequest__mbmsueLinkingRequest_ies"); CM "_asn_ctx" false (CName "asn_struct_ctx_t")]);
  (* include/osmocom/ranap/RANAP_MBMSUELinkingResponse.h:25-39 *)
  ("RANAP_MBMSUELinkingResponse__mbmsueLinkingResponse_ies", [CM "list" false (CList (CName "RANAP_IE_t")); CM "_asn_ctx" false (CName "asn_struct_ctx_t")]);
  (* include/osmocom/ranap/RANAP_MBMSUELinkingResponse.h:25-39 *)
  ("RANAP_MBMSUELinkingResponse", [CM "mbmsueLinkingResponse_ies" false (CStruct "RANAP_MBMSUELinkingResponse__mbmsueLinkingResponse_ies"); CM "_asn_ctx" false (CName "asn_struct_ctx_t")]);
  (* include/osmocom/ranap/RANAP_MDT-Configuration.h:26-38 *)
  ("RANAP_MDT_Configuration", [CM "mdtActivation" false (CName "RANAP_MDT_Activation_t"); CM "mdtAreaScope" false (CName "RANAP_MDTAreaScope_t"); CM "mdtMode" false (CName "RANAP_MDTMode_t"); CM "iE_Extensions" true (CName "RANAP_IE_Extensions_t"); CM "_asn_ctx" false (CName "asn_struct_ctx_t")]);
  (* include/osmocom/ranap/RANAP_MDT-PLMN-List.h:24-29 *)
  ("RANAP_MDT_PLMN_List", [CM "list" false (CList (CName "RANAP_PLMNidentity_t")); CM "_asn_ctx" false (CName "asn_struct_ctx_t")]);
  (* include/osmocom/ranap/RANAP_MDT-Report-Parameters.h:24-34 *)
  ("RANAP_MDT_Report_Parameters", [CM "reportInterval" false (CName "RANAP_ReportInterval_t"); CM "reportAmount" false (CName "RANAP_ReportAmount_t"); CM "_asn_ctx" false (CName "asn_struct_ctx_t")]);
  (* include/osmocom/ranap/RANAP_MDTAreaScope.h:37-52 *)
  ("RANAP_MDTAreaScope", [CM "present" false (CName "RANAP_MDTAreaScope_PR"); CM "choice" false (CUnion "RANAP_MDTAreaScope_u"); CM "_asn_ctx" false (CName "asn_struct_ctx_t")]);
  (* include/osmocom/ranap/RANAP_MDTMode.h:33-46 *)
  ("RANAP_MDTMode", [CM "present" false (CName "RANAP_MDTMode_PR"); CM "choice" false (CUnion "RANAP_MDTMode_u"); CM "_asn_ctx" false (CName "asn_struct_ctx_t")]);
  (* include/osmocom/ranap/RANAP_MessageStructure-Value.h:25-36 *)
  ("RANAP_MessageStructure_Value", [CM "iE_ID" false (CName "RANAP_ProtocolIE_ID_t"); CM "repetitionNumber" true (CName "RANAP_RepetitionNumber1_t"); CM "iE_Extensions" true (CName "RANAP_IE_Extensions_t"); CM "_asn_ctx" false (CName "asn_struct_ctx_t")]);
  (* include/osmocom/ranap/RANAP_MessageStructure.h:24-29 *)
  ("RANAP_MessageStructure", [CM "list" false (CList (CName "RANAP_MessageStructure_Value_t")); CM "_asn_ctx" false (CName "asn_struct_ctx_t")]);
  (* include/osmocom/ranap/RANAP_NewRAListofIdleModeUEs.h:24-29 *)
  ("RANAP_NewRAListofIdleModeUEs", [CM "list" false (CList (CName "RANAP_RAC_t")); CM "_asn_ctx" false (CName "asn_struct_ctx_t")]);
  (* include/osmocom/ranap/RANAP_NotEmptyRAListofIdleModeUEs.h:24-30 *)
  ("RANAP_NotEmptyRAListofIdleModeUEs", [CM "rAofIdleModeUEs" false (CName "RANAP_RAofIdleModeUEs_t"); CM "iE_Extensions" true (CName "RANAP_IE_Extensions_t"); CM "_asn_ctx" false (CName "asn_struct_ctx_t")]);
  (* include/osmocom/ranap/RANAP_Offload-RAB-Parameters.h:25-36 *)
  ("RANAP_Offload_RAB_Parameters", [CM "accessPointName" false (CName "RANAP_Offload_RAB_Parameters_APN_t"); CM "chargingCharacteristics" false (CName "RANAP_Offload_RAB_Parameters_ChargingCharacteristics_t"); CM "iE_Extensions" true (CName "RANAP_IE_Extensions_t"); CM "_asn_ctx" false (CName "asn_struct_ctx_t")]);
  (* include/osmocom/ranap/RANAP_Outcome.h:25-32 *)
  ("RANAP_Outcome", [CM "procedureCode" false (CName "RANAP_ProcedureCode_t"); CM "criticality" false (CName "RANAP_Criticality_t"); CM "value" false (CName "ANY_t"); CM "_asn_ctx" false (CName "asn_struct_ctx_t")]);
  (* include/osmocom/ranap/RANAP_Overload.h:25-39 *)
  ("RANAP_Overload__overload_ies", [CM "list" false (CList (CName "RANAP_IE_t")); CM "_asn_ctx" false (CName "asn_struct_ctx_t")]);
  (* include/osmocom/ranap/RANAP_Overload.h:25-39 *)
  ("RANAP_Overload", [CM "overload_ies" false (CStruct "RANAP_Overload__overload_ies"); CM "_asn_ctx" false (CName "asn_struct_ctx_t")]);
  (* include/osmocom/ranap/RANAP_PDP-TypeInformation-extension.h:24-29 *)
  ("RANAP_PDP_TypeInformation_extension", [CM "list" false (CList (CName "RANAP_PDP_Type_extension_t")); CM "_asn_ctx" false (CName "asn_struct_ctx_t")]);
  (* include/osmocom/ranap/RANAP_PDP-TypeInformation.h:24-29 *)
  ("RANAP_PDP_TypeInformation", [CM "list" false (CList (CName "RANAP_PDP_Type_t")); CM "_asn_ctx" false (CName "asn_struct_ctx_t")]);
  (* include/osmocom/ranap/RANAP_PLMNs-in-shared-network-Value.h:25-36 *)
  ("RANAP_PLMNs_in_shared_network_Value", [CM "pLMNidentity" false (CName "RANAP_PLMNidentity_t"); CM "lA_LIST" false (CName "RANAP_LA_LIST_t"); CM "iE_Extensions" true (CName "RANAP_IE_Extensions_t"); CM "_asn_ctx" false (CName "asn_struct_ctx_t")]);
  (* include/osmocom/ranap/RANAP_PLMNs-in-shared-network.h:24-29 *)
  ("RANAP_PLMNs_in_shared_network", [CM "list" false (CList (CName "RANAP_PLMNs_in_shared_network_Value_t")); CM "_asn_ctx" false (CName "asn_struct_ctx_t")]);
  (* include/osmocom/ranap/RANAP_Paging.h:25-39 *)
  ("RANAP_Paging__paging_ies", [CM "list" false (CList (CName "RANAP_IE_t")); CM "_asn_ctx" false (CName "asn_struct_ctx_t")]);
  (* include/osmocom/ranap/RANAP_Paging.h:25-39 *)
  ("RANAP_Paging", [CM "paging_ies" false (CStruct "RANAP_Paging__paging_ies"); CM "_asn_ctx" false (CName "asn_struct_ctx_t")]);
  (* include/osmocom/ranap/RANAP_PagingAreaID.h:33-46 *)
  ("RANAP_PagingAreaID", [CM "present" false (CName "RANAP_PagingAreaID_PR"); CM "choice" false (CUnion "RANAP_PagingAreaID_u"); CM "_asn_ctx" false (CName "asn_struct_ctx_t")]);
  (* include/osmocom/ranap/RANAP_PeriodicLocationInfo.h:24-35 *)
  ("RANAP_PeriodicLocationInfo", [CM "reportingAmount" false (CName "long"); CM "reportingInterval" false (CName "long"); CM "iE_Extensions" true (CName "RANAP_IE_Extensions_t"); CM "_asn_ctx" false (CName "asn_struct_ctx_t")]);
  (* include/osmocom/ranap/RANAP_PermanentNAS-UE-ID.h:31-43 *)
  ("RANAP_PermanentNAS_UE_ID", [CM "present" false (CName "RANAP_PermanentNAS_UE_ID_PR"); CM "choice" false (CUnion "RANAP_PermanentNAS_UE_ID_u"); CM "_asn_ctx" false (CName "asn_struct_ctx_t")]);
  (* include/osmocom/ranap/RANAP_PermittedEncryptionAlgorithms.h:24-29 *)
  ("RANAP_PermittedEncryptionAlgorithms", [CM "list" false (CList (CName "RANAP_EncryptionAlgorithm_t")); CM "_asn_ctx" false (CName "asn_struct_ctx_t")]);
  (* include/osmocom/ranap/RANAP_PermittedIntegrityProtectionAlgorithms.h:24-29 *)
  ("RANAP_PermittedIntegrityProtectionAlgorithms", [CM "list" false (CList (CName "RANAP_IntegrityProtectionAlgorithm_t")); CM "_asn_ctx" false (CName "asn_struct_ctx_t")]);
  (* include/osmocom/ranap/RANAP_PositionData.h:25-36 *)
  ("RANAP_PositionData", [CM "positioningDataDiscriminator" false (CName "RANAP_PositioningDataDiscriminator_t"); CM "positioningDataSet" true (CName "RANAP_PositioningDataSet_t"); CM "iE_Extensions" true (CName "RANAP_IE_Extensions_t"); CM "_asn_ctx" false (CName "asn_struct_ctx_t")]);
  (* include/osmocom/ranap/RANAP_PositioningDataSet.h:24-29 *)
  ("RANAP_PositioningDataSet", [CM "list" false (CList (CName "RANAP_PositioningMethodAndUsage_t")); CM "_asn_ctx" false (CName "asn_struct_ctx_t")]);
  (* include/osmocom/ranap/RANAP_PrivateIE-ID.h:31-40 *)
  ("RANAP_PrivateIE_ID", [CM "present" false (CName "RANAP_PrivateIE_ID_PR"); CM "choice" false (CUnion "RANAP_PrivateIE_ID_u"); CM "_asn_ctx" false (CName "asn_struct_ctx_t")]);
  (* include/osmocom/ranap/RANAP_PrivateMessage.h:25-39 *)
  ("RANAP_PrivateMessage__privateMessage_ies", [CM "list" false (CList (CName "RANAP_IE_t")); CM "_asn_ctx" false (CName "asn_struct_ctx_t")]);
  (* include/osmocom/ranap/RANAP_PrivateMessage.h:25-39 *)
  ("RANAP_PrivateMessage", [CM "privateMessage_ies" false (CStruct "RANAP_PrivateMessage__privateMessage_ies"); CM "_asn_ctx" false (CName "asn_struct_ctx_t")]);
  (* include/osmocom/ranap/RANAP_ProtocolError-IE-ContainerList.h:24-29 *)
  ("RANAP_ProtocolError_IE_ContainerList", [CM "list" false (CList (CName "RANAP_ProtocolIE_Container_t")); CM "_asn_ctx" false (CName "asn_struct_ctx_t")]);
  (* include/osmocom/ranap/RANAP_ProtocolExtensionContainer.h:24-29 *)
  ("RANAP_ProtocolExtensionContainer", [CM "list" false (CList (CName "RANAP_ProtocolExtensionField_t")); CM "_asn_ctx" false (CName "asn_struct_ctx_t")]);
  (* include/osmocom/ranap/RANAP_ProtocolExtensionField.h:25-32 *)
  ("RANAP_ProtocolExtensionField", [CM "id" false (CName "RANAP_ProtocolIE_ID_t"); CM "criticality" false (CName "RANAP_Criticality_t"); CM "value" false (CName "ANY_t"); CM "_asn_ctx" false (CName "asn_struct_ctx_t")]);
  (* include/osmocom/ranap/RANAP_ProtocolIE-Container.h:24-29 *)
  ("RANAP_ProtocolIE_Container", [CM "list" false (CList (CName "RANAP_IE_t")); CM "_asn_ctx" false (CName "asn_struct_ctx_t")]);
  (* include/osmocom/ranap/RANAP_ProtocolIE-ContainerPair.h:24-29 *)
  ("RANAP_ProtocolIE_ContainerPair", [CM "list" false (CList (CName "RANAP_ProtocolIE_FieldPair_t")); CM "_asn_ctx" false (CName "asn_struct_ctx_t")]);
  (* include/osmocom/ranap/RANAP_ProtocolIE-FieldPair.h:25-34 *)
  ("RANAP_ProtocolIE_FieldPair", [CM "id" false (CName "RANAP_ProtocolIE_ID_t"); CM "firstCriticality" false (CName "RANAP_Criticality_t"); CM "firstValue" false (CName "ANY_t"); CM "secondCriticality" false (CName "RANAP_Criticality_t"); CM "secondValue" false (CName "ANY_t"); CM "_asn_ctx" false (CName "asn_struct_ctx_t")]);
  (* include/osmocom/ranap/RANAP_ProvidedData.h:31-43 *)
  ("RANAP_ProvidedData", [CM "present" false (CName "RANAP_ProvidedData_PR"); CM "choice" false (CUnion "RANAP_ProvidedData_u"); CM "_asn_ctx" false (CName "asn_struct_ctx_t")]);
  (* include/osmocom/ranap/RANAP_RAB-AssignmentRequest.h:25-39 *)
  ("RANAP_RAB_AssignmentRequest__raB_AssignmentRequest_ies", [CM "list" false (CList (CName "RANAP_IE_t")); CM "_asn_ctx" false (CName "asn_struct_ctx_t")]);
  (* include/osmocom/ranap/RANAP_RAB-AssignmentRequest.h:25-39 *)
  ("RANAP_RAB_AssignmentRequest", [CM "raB_AssignmentRequest_ies" false (CStruct "RANAP_RAB_AssignmentRequest__raB_AssignmentRequest_ies"); CM "_asn_ctx" false (CName "asn_struct_ctx_t")]);
  (* include/osmocom/ranap/RANAP_RAB-AssignmentResponse.h:25-39 *)
  ("RANAP_RAB_AssignmentResponse__raB_AssignmentResponse_ies", [CM "list" false (CList (CName "RANAP_IE_t")); CM "_asn_ctx" false (CName "asn_struct_ctx_t")]);
  (* include/osmocom/ranap/RANAP_RAB-AssignmentResponse.h:25-39 *)
  ("RANAP_RAB_AssignmentResponse", [CM "raB_AssignmentResponse_ies" false (CStruct "RANAP_RAB_AssignmentResponse__raB_AssignmentResponse_ies"); CM "_asn_ctx" false (CName "asn_struct_ctx_t")]);
  (* include/osmocom/ranap/RANAP_RAB-ContextItem-RANAP-RelocInf.h:28-42 *)
  ("RANAP_RAB_ContextItem_RANAP_RelocInf", [CM "rAB_ID" false (CName "RANAP_RAB_ID_t"); CM "dl_GTP_PDU_SequenceNumber" true (CName "RANAP_DL_GTP_PDU_SequenceNumber_t"); CM "ul_GTP_PDU_SequenceNumber" true (CName "RANAP_UL_GTP_PDU_SequenceNumber_t"); CM "dl_N_PDU_SequenceNumber" true (CName "RANAP_DL_N_PDU_SequenceNumber_t"); CM "ul_N_PDU_SequenceNumber" true (CName "RANAP_UL_N_PDU_SequenceNumber_t"); CM "iE_Extensions" true (CName "RANAP_ProtocolExtensionContainer_t"); CM "_asn_ctx" false (CName "asn_struct_ctx_t")]);
  (* include/osmocom/ranap/RANAP_RAB-ContextItem.h:28-42 *)
  ("RANAP_RAB_ContextItem", [CM "rAB_ID" false (CName "RANAP_RAB_ID_t"); CM "dl_GTP_PDU_SequenceNumber" true (CName "RANAP_DL_GTP_PDU_SequenceNumber_t"); CM "ul_GTP_PDU_SequenceNumber" true (CName "RANAP_UL_GTP_PDU_SequenceNumber_t"); CM "dl_N_PDU_SequenceNumber" true (CName "RANAP_DL_N_PDU_SequenceNumber_t"); CM "ul_N_PDU_SequenceNumber" true (CName "RANAP_UL_N_PDU_SequenceNumber_t"); CM "iE_Extensions" true (CName "RANAP_ProtocolExtensionContainer_t"); CM "_asn_ctx" false (CName "asn_struct_ctx_t")]);
  (* include/osmocom/ranap/RANAP_RAB-ContextList-RANAP-RelocInf.h:25-39 *)
  ("RANAP_RAB_ContextList_RANAP_RelocInf__raB_ContextList_RANAP_RelocInf_ies", [CM "list" false (CList (CName "RANAP_IE_t")); CM "_asn_ctx" false (CName "asn_struct_ctx_t")]);
  (* include/osmocom/ranap/RANAP_RAB-ContextList-RANAP-RelocInf.h:25-39 *)
  ("RANAP_RAB_ContextList_RANAP_RelocInf", [CM "raB_ContextList_RANAP_RelocInf_ies" false (CStruct "RANAP_RAB_ContextList_RANAP_RelocInf__raB_ContextList_RANAP_RelocInf_ies"); CM "_asn_ctx" false (CName "asn_struct_ctx_t")]);
  (* include/osmocom/ranap/RANAP_RAB-ContextList.h:25-39 *)
  ("RANAP_RAB_ContextList__raB_ContextList_ies", [CM "list" false (CList (CName "RANAP_IE_t")); CM "_asn_ctx" false (CName "asn_struct_ctx_t")]);
  (* include/osmocom/ranap/RANAP_RAB-ContextList.h:25-39 *)
  ("RANAP_RAB_ContextList", [CM "raB_ContextList_ies" false (CStruct "RANAP_RAB_ContextList__raB_ContextList_ies"); CM "_asn_ctx" false (CName "asn_struct_ctx_t")]);
  (* include/osmocom/ranap/RANAP_RAB-DataForwardingItem-SRNS-CtxReq.h:24-34 *)
  ("RANAP_RAB_DataForwardingItem_SRNS_CtxReq", [CM "rAB_ID" false (CName "RANAP_RAB_ID_t"); CM "iE_Extensions" true (CName "RANAP_ProtocolExtensionContainer_t"); CM "_asn_ctx" false (CName "asn_struct_ctx_t")]);
  (* include/osmocom/ranap/RANAP_RAB-DataForwardingItem.h:26-38 *)
  ("RANAP_RAB_DataForwardingItem", [CM "rAB_ID" false (CName "RANAP_RAB_ID_t"); CM "transportLayerAddress" false (CName "RANAP_TransportLayerAddress_t"); CM "iuTransportAssociation" false (CName "RANAP_IuTransportAssociation_t"); CM "iE_Extensions" true (CName "RANAP_ProtocolExtensionContainer_t"); CM "_asn_ctx" false (CName "asn_struct_ctx_t")]);
  (* include/osmocom/ranap/RANAP_RAB-DataForwardingList-SRNS-CtxReq.h:25-39 *)
  ("RANAP_RAB_DataForwardingList_SRNS_CtxReq__raB_DataForwardingList_SRNS_CtxReq_ies", [CM "list" false (CList (CName "RANAP_IE_t")); CM "_asn_ctx" false (CName "asn_struct_ctx_t")]);
  (* include/osmocom/ranap/RANAP_RAB-DataForwardingList-SRNS-CtxReq.h:25-39 *)
  ("RANAP_RAB_DataForwardingList_SRNS_CtxReq", [CM "raB_DataForwardingList_SRNS_CtxReq_ies" false (CStruct "RANAP_RAB_DataForwardingList_SRNS_CtxReq__raB_DataForwardingList_SRNS_CtxReq_ies"); CM "_asn_ctx" false (CName "asn_struct_ctx_t")]);
  (* include/osmocom/ranap/RANAP_RAB-DataForwardingList.h:25-39 *)
  ("RANAP_RAB_DataForwardingList__raB_DataForwardingList_ies", [CM "list" false (CList (CName "RANAP_IE_t")); CM "_asn_ctx" false (CName "asn_struct_ctx_t")]);
  (* include/osmocom/ranap/RANAP_RAB-DataForwardingList.h:25-39 *)
  ("RANAP_RAB_DataForwardingList", [CM "raB_DataForwardingList_ies" false (CStruct "RANAP_RAB_DataForwardingList__raB_DataForwardingList_ies"); CM "_asn_ctx" false (CName "asn_struct_ctx_t")]);
  (* include/osmocom/ranap/RANAP_RAB-DataVolumeReportItem.h:25-36 *)
  ("RANAP_RAB_DataVolumeReportItem", [CM "rAB_ID" false (CName "RANAP_RAB_ID_t"); CM "dl_UnsuccessfullyTransmittedDataVolume" true (CName "RANAP_DataVolumeList_t"); CM "iE_Extensions" true (CName "RANAP_ProtocolExtensionContainer_t"); CM "_asn_ctx" false (CName "asn_struct_ctx_t")]);
  (* include/osmocom/ranap/RANAP_RAB-DataVolumeReportList.h:25-39 *)
  ("RANAP_RAB_DataVolumeReportList__raB_DataVolumeReportList_ies", [CM "list" false (CList (CName "RANAP_IE_t")); CM "_asn_ctx" false (CName "asn_struct_ctx_t")]);
  (* include/osmocom/ranap/RANAP_RAB-DataVolumeReportList.h:25-39 *)
  ("RANAP_RAB_DataVolumeReportList", [CM "raB_DataVolumeReportList_ies" false (CStruct "RANAP_RAB_DataVolumeReportList__raB_DataVolumeReportList_ies"); CM "_asn_ctx" false (CName "asn_struct_ctx_t")]);
  (* include/osmocom/ranap/RANAP_RAB-DataVolumeReportRequestItem.h:24-34 *)
  ("RANAP_RAB_DataVolumeReportRequestItem", [CM "rAB_ID" false (CName "RANAP_RAB_ID_t"); CM "iE_Extensions" true (CName "RANAP_ProtocolExtensionContainer_t"); CM "_asn_ctx" false (CName "asn_struct_ctx_t")]);
  (* include/osmocom/ranap/RANAP_RAB-DataVolumeReportRequestList.h:25-39 *)
  ("RANAP_RAB_DataVolumeReportRequestList__raB_DataVolumeReportRequestList_ies", [CM "list" false (CList (CName "RANAP_IE_t")); CM "_asn_ctx" false (CName "asn_struct_ctx_t")]);
  (* include/osmocom/ranap/RANAP_RAB-DataVolumeReportRequestList.h:25-39 *)
  ("RANAP_RAB_DataVolumeReportRequestList", [CM "raB_DataVolumeReportRequestList_ies" false (CStruct "RANAP_RAB_DataVolumeReportRequestList__raB_DataVolumeReportRequestList_ies"); CM "_asn_ctx" false (CName "asn_struct_ctx_t")]);
  (* include/osmocom/ranap/RANAP_RAB-FailedItem-EnhRelocInfoRes.h:26-38 *)
  ("RANAP_RAB_FailedItem_EnhRelocInfoRes", [CM "cN_DomainIndicator" false (CName "RANAP_CN_DomainIndicator_t"); CM "rAB_ID" false (CName "RANAP_RAB_ID_t"); CM "cause" false (CName "RANAP_Cause_t"); CM "iE_Extensions" true (CName "RANAP_ProtocolExtensionContainer_t"); CM "_asn_ctx" false (CName "asn_struct_ctx_t")]);
  (* include/osmocom/ranap/RANAP_RAB-FailedItem.h:25-36 *)
  ("RANAP_RAB_FailedItem", [CM "rAB_ID" false (CName "RANAP_RAB_ID_t"); CM "cause" false (CName "RANAP_Cause_t"); CM "iE_Extensions" true (CName "RANAP_ProtocolExtensionContainer_t"); CM "_asn_ctx" false (CName "asn_struct_ctx_t")]);
  (* include/osmocom/ranap/RANAP_RAB-FailedList-EnhRelocInfoRes.h:25-39 *)
  ("RANAP_RAB_FailedList_EnhRelocInfoRes__raB_FailedList_EnhRelocInfoRes_ies", [CM "list" false (CList (CName "RANAP_IE_t")); CM "_asn_ctx" false (CName "asn_struct_ctx_t")]);
  (* include/osmocom/ranap/RANAP_RAB-FailedList-EnhRelocInfoRes.h:25-39 *)
  ("RANAP_RAB_FailedList_EnhRelocInfoRes", [CM "raB_FailedList_EnhRelocInfoRes_ies" false (CStruct "RANAP_RAB_FailedList_EnhRelocInfoRes__raB_FailedList_EnhRelocInfoRes_ies"); CM "_asn_ctx" false (CName "asn_struct_ctx_t")]);
  (* include/osmocom/ranap/RANAP_RAB-FailedList.h:25-39 *)
  ("RANAP_RAB_FailedList__raB_FailedList_ies", [CM "list" false (CList (CName "RANAP_IE_t")); CM "_asn_ctx" false (CName "asn_struct_ctx_t")]);
  (* include/osmocom/ranap/RANAP_RAB-FailedList.h:25-39 *)
  ("RANAP_RAB_FailedList", [CM "raB_FailedList_ies" false (CStruct "RANAP_RAB_FailedList__raB_FailedList_ies"); CM "_asn_ctx" false (CName "asn_struct_ctx_t")]);
  (* include/osmocom/ranap/RANAP_RAB-IE-ContainerList.h:24-29 *)
  ("RANAP_RAB_IE_ContainerList", [CM "list" false (CList (CName "RANAP_ProtocolIE_Container_t")); CM "_asn_ctx" false (CName "asn_struct_ctx_t")]);
  (* include/osmocom/ranap/RANAP_RAB-IE-ContainerPairList.h:24-29 *)
  ("RANAP_RAB_IE_ContainerPairList", [CM "list" false (CList (CName "RANAP_ProtocolIE_ContainerPair_t")); CM "_asn_ctx" false (CName "asn_struct_ctx_t")]);
  (* include/osmocom/ranap/RANAP_RAB-ModifyItem.h:25-36 *)
  ("RANAP_RAB_ModifyItem", [CM "rAB_ID" false (CName "RANAP_RAB_ID_t"); CM "requested_RAB_Parameter_Values" false (CName "RANAP_Requested_RAB_Parameter_Values_t"); CM "iE_Extensions" true (CName "RANAP_ProtocolExtensionContainer_t"); CM "_asn_ctx" false (CName "asn_struct_ctx_t")]);
  (* include/osmocom/ranap/RANAP_RAB-ModifyList.h:25-39 *)
  ("RANAP_RAB_ModifyList__raB_ModifyList_ies", [CM "list" false (CList (CName "RANAP_IE_t")); CM "_asn_ctx" false (CName "asn_struct_ctx_t")]);
  (* include/osmocom/ranap/RANAP_RAB-ModifyList.h:25-39 *)
  ("RANAP_RAB_ModifyList", [CM "raB_ModifyList_ies" false (CStruct "RANAP_RAB_ModifyList__raB_ModifyList_ies"); CM "_asn_ctx" false (CName "asn_struct_ctx_t")]);
  (* include/osmocom/ranap/RANAP_RAB-ModifyRequest.h:25-39 *)
  ("RANAP_RAB_ModifyRequest__raB_ModifyRequest_ies", [CM "list" false (CList (CName "RANAP_IE_t")); CM "_asn_ctx" false (CName "asn_struct_ctx_t")]);
  (* include/osmocom/ranap/RANAP_RAB-ModifyRequest.h:25-39 *)
  ("RANAP_RAB_ModifyRequest", [CM "raB_ModifyRequest_ies" false (CStruct "RANAP_RAB_ModifyRequest__raB_ModifyRequest_ies"); CM "_asn_ctx" false (CName "asn_struct_ctx_t")]);
  (* include/osmocom/ranap/RANAP_RAB-Parameter-ExtendedGuaranteedBitrateList.h:24-29 *)
  ("RANAP_RAB_Parameter_ExtendedGuaranteedBitrateList", [CM "list" false (CList (CName "RANAP_ExtendedGuaranteedBitrate_t")); CM "_asn_ctx" false (CName "asn_struct_ctx_t")]);
  (* include/osmocom/ranap/RANAP_RAB-Parameter-ExtendedMaxBitrateList.h:24-29 *)
  ("RANAP_RAB_Parameter_ExtendedMaxBitrateList", [CM "list" false (CList (CName "RANAP_ExtendedMaxBitrate_t")); CM "_asn_ctx" false (CName "asn_struct_ctx_t")]);
  (* include/osmocom/ranap/RANAP_RAB-Parameter-GuaranteedBitrateList.h:24-29 *)
  ("RANAP_RAB_Parameter_GuaranteedBitrateList", [CM "list" false (CList (CName "RANAP_GuaranteedBitrate_t")); CM "_asn_ctx" false (CName "asn_struct_ctx_t")]);
  (* include/osmocom/ranap/RANAP_RAB-Parameter-MaxBitrateList.h:24-29 *)
  ("RANAP_RAB_Parameter_MaxBitrateList", [CM "list" false (CList (CName "RANAP_MaxBitrate_t")); CM "_asn_ctx" false (CName "asn_struct_ctx_t")]);
  (* include/osmocom/ranap/RANAP_RAB-Parameters.h:35-56 *)
  ("RANAP_RAB_Parameters", [CM "trafficClass" false (CName "RANAP_TrafficClass_t"); CM "rAB_AsymmetryIndicator" false (CName "RANAP_RAB_AsymmetryIndicator_t"); CM "maxBitrate" false (CName "RANAP_RAB_Parameter_MaxBitrateList_t"); CM "guaranteedBitRate" true (CName "RANAP_RAB_Parameter_GuaranteedBitrateList_t"); CM "deliveryOrder" false (CName "RANAP_DeliveryOrder_t"); CM "maxSDU_Size" false (CName "RANAP_MaxSDU_Size_t"); CM "sDU_Parameters" false (CName "RANAP_SDU_Parameters_t"); CM "transferDelay" true (CName "RANAP_TransferDelay_t"); CM "trafficHandlingPriority" true (CName "RANAP_TrafficHandlingPriority_t"); CM "allocationOrRetentionPriority" true (CName "RANAP_AllocationOrRetentionPriority_t"); CM "sourceStatisticsDescriptor" true (CName "RANAP_SourceStatisticsDescriptor_t"); CM "relocationRequirement" true (CName "RANAP_RelocationRequirement_t"); CM "iE_Extensions" true (CName "RANAP_IE_Extensions_t"); CM "_asn_ctx" false (CName "asn_struct_ctx_t")]);
  (* include/osmocom/ranap/RANAP_RAB-QueuedItem.h:24-34 *)
  ("RANAP_RAB_QueuedItem", [CM "rAB_ID" false (CName "RANAP_RAB_ID_t"); CM "iE_Extensions" true (CName "RANAP_ProtocolExtensionContainer_t"); CM "_asn_ctx" false (CName "asn_struct_ctx_t")]);
  (* include/osmocom/ranap/RANAP_RAB-QueuedList.h:25-39 *)
  ("RANAP_RAB_QueuedList__raB_QueuedList_ies", [CM "list" false (CList (CName "RANAP_IE_t")); CM "_asn_ctx" false (CName "asn_struct_ctx_t")]);
  (* include/osmocom/ranap/RANAP_RAB-QueuedList.h:25-39 *)
  ("RANAP_RAB_QueuedList", [CM "raB_QueuedList_ies" false (CStruct "RANAP_RAB_QueuedList__raB_QueuedList_ies"); CM "_asn_ctx" false (CName "asn_struct_ctx_t")]);
  (* include/osmocom/ranap/RANAP_RAB-ReleaseItem.h:25-36 *)
  ("RANAP_RAB_ReleaseItem", [CM "rAB_ID" false (CName "RANAP_RAB_ID_t"); CM "cause" false (CName "RANAP_Cause_t"); CM "iE_Extensions" true (CName "RANAP_ProtocolExtensionContainer_t"); CM "_asn_ctx" false (CName "asn_struct_ctx_t")]);
  (* include/osmocom/ranap/RANAP_RAB-ReleaseList.h:25-39 *)
  ("RANAP_RAB_ReleaseList__raB_ReleaseList_ies", [CM "list" false (CList (CName "RANAP_IE_t")); CM "_asn_ctx" false (CName "asn_struct_ctx_t")]);
  (* include/osmocom/ranap/RANAP_RAB-ReleaseList.h:25-39 *)
  ("RANAP_RAB_ReleaseList", [CM "raB_ReleaseList_ies" false (CStruct "RANAP_RAB_ReleaseList__raB_ReleaseList_ies"); CM "_asn_ctx" false (CName "asn_struct_ctx_t")]);
  (* include/osmocom/ranap/RANAP_RAB-ReleaseRequest.h:25-39 *)
  ("RANAP_RAB_ReleaseRequest__raB_ReleaseRequest_ies", [CM "list" false (CList (CName "RANAP_IE_t")); CM "_asn_ctx" false (CName "asn_struct_ctx_t")]);
  (* include/osmocom/ranap/RANAP_RAB-ReleaseRequest.h:25-39 *)
  ("RANAP_RAB_ReleaseRequest", [CM "raB_ReleaseRequest_ies" false (CStruct "RANAP_RAB_ReleaseRequest__raB_ReleaseRequest_ies"); CM "_asn_ctx" false (CName "asn_struct_ctx_t")]);
  (* include/osmocom/ranap/RANAP_RAB-ReleasedItem-IuRelComp.h:26-38 *)
  ("RANAP_RAB_ReleasedItem_IuRelComp", [CM "rAB_ID" false (CName "RANAP_RAB_ID_t"); CM "dL_GTP_PDU_SequenceNumber" true (CName "RANAP_DL_GTP_PDU_SequenceNumber_t"); CM "uL_GTP_PDU_SequenceNumber" true (CName "RANAP_UL_GTP_PDU_SequenceNumber_t"); CM "iE_Extensions" true (CName "RANAP_ProtocolExtensionContainer_t"); CM "_asn_ctx" false (CName "asn_struct_ctx_t")]);
  (* include/osmocom/ranap/RANAP_RAB-ReleasedItem.h:27-40 *)
  ("RANAP_RAB_ReleasedItem", [CM "rAB_ID" false (CName "RANAP_RAB_ID_t"); CM "dl_dataVolumes" true (CName "RANAP_DataVolumeList_t"); CM "dL_GTP_PDU_SequenceNumber" true (CName "RANAP_DL_GTP_PDU_SequenceNumber_t"); CM "uL_GTP_PDU_SequenceNumber" true (CName "RANAP_UL_GTP_PDU_SequenceNumber_t"); CM "iE_Extensions" true (CName "RANAP_ProtocolExtensionContainer_t"); CM "_asn_ctx" false (CName "asn_struct_ctx_t")]);
  (* include/osmocom/ranap/RANAP_RAB-ReleasedList-IuRelComp.h:25-39 *)
  ("RANAP_RAB_ReleasedList_IuRelComp__raB_ReleasedList_IuRelComp_ies", [CM "list" false (CList (CName "RANAP_IE_t")); CM "_asn_ctx" false (CName "asn_struct_ctx_t")]);
  (* include/osmocom/ranap/RANAP_RAB-ReleasedList-IuRelComp.h:25-39 *)
  ("RANAP_RAB_ReleasedList_IuRelComp", [CM "raB_ReleasedList_IuRelComp_ies" false (CStruct "RANAP_RAB_ReleasedList_IuRelComp__raB_ReleasedList_IuRelComp_ies"); CM "_asn_ctx" false (CName "asn_struct_ctx_t")]);
  (* include/osmocom/ranap/RANAP_RAB-ReleasedList.h:25-39 *)
  ("RANAP_RAB_ReleasedList__raB_ReleasedList_ies", [CM "list" false (CList (CName "RANAP_IE_t")); CM "_asn_ctx" false (CName "asn_struct_ctx_t")]);
  (* include/osmocom/ranap/RANAP_RAB-ReleasedList.h:25-39 *)
  ("RANAP_RAB_ReleasedList", [CM "raB_ReleasedList_ies" false (CStruct "RANAP_RAB_ReleasedList__raB_ReleasedList_ies"); CM "_asn_ctx" false (CName "asn_struct_ctx_t")]);
  (* include/osmocom/ranap/RANAP_RAB-RelocationReleaseItem.h:24-34 *)
  ("RANAP_RAB_RelocationReleaseItem", [CM "rAB_ID" false (CName "RANAP_RAB_ID_t"); CM "iE_Extensions" true (CName "RANAP_ProtocolExtensionContainer_t"); CM "_asn_ctx" false (CName "asn_struct_ctx_t")]);
  (* include/osmocom/ranap/RANAP_RAB-RelocationReleaseList.h:25-39 *)
  ("RANAP_RAB_RelocationReleaseList__raB_RelocationReleaseList_ies", [CM "list" false (CList (CName "RANAP_IE_t")); CM "_asn_ctx" false (CName "asn_struct_ctx_t")]);
  (* include/osmocom/ranap/RANAP_RAB-RelocationReleaseList.h:25-39 *)
  ("RANAP_RAB_RelocationReleaseList", [CM "raB_RelocationReleaseList_ies" false (CStruct "RANAP_RAB_RelocationReleaseList__raB_RelocationReleaseList_ies"); CM "_asn_ctx" false (CName "asn_struct_ctx_t")]);
  (* include/osmocom/ranap/RANAP_RAB-SetupItem-EnhRelocInfoReq.h:32-51 *)
  ("RANAP_RAB_SetupItem_EnhRelocInfoReq", [CM "rAB_ID" false (CName "RANAP_RAB_ID_t"); CM "cN_DomainIndicator" false (CName "RANAP_CN_DomainIndicator_t"); CM "rAB_Parameters" false (CName "RANAP_RAB_Parameters_t"); CM "dataVolumeReportingIndication" true (CName "RANAP_DataVolumeReportingIndication_t"); CM "pDP_TypeInformation" true (CName "RANAP_PDP_TypeInformation_t"); CM "userPlaneInformation" false (CName "RANAP_UserPlaneInformation_t"); CM "dataForwardingInformation" true (CName "RANAP_TNLInformationEnhRelInfoReq_t"); CM "sourceSideIuULTNLInfo" true (CName "RANAP_TNLInformationEnhRelInfoReq_t"); CM "service_Handover" true (CName "RANAP_Service_Handover_t"); CM "alt_RAB_Parameters" true (CName "RANAP_Alt_RAB_Parameters_t"); CM "iE_Extensions" true (CName "RANAP_ProtocolExtensionContainer_t"); CM "_asn_ctx" false (CName "asn_struct_ctx_t")]);
  (* include/osmocom/ranap/RANAP_RAB-SetupItem-EnhRelocInfoRes.h:27-40 *)
  ("RANAP_RAB_SetupItem_EnhRelocInfoRes", [CM "cN_DomainIndicator" false (CName "RANAP_CN_DomainIndicator_t"); CM "rAB_ID" false (CName "RANAP_RAB_ID_t"); CM "dataForwardingInformation" true (CName "RANAP_TNLInformationEnhRelInfoRes_t"); CM "ass_RAB_Parameters" true (CName "RANAP_Ass_RAB_Parameters_t"); CM "iE_Extensions" true (CName "RANAP_ProtocolExtensionContainer_t"); CM "_asn_ctx" false (CName "asn_struct_ctx_t")]);
  (* include/osmocom/ranap/RANAP_RAB-SetupItem-EnhancedRelocCompleteReq.h:27-40 *)
  ("RANAP_RAB_SetupItem_EnhancedRelocCompleteReq", [CM "rAB_ID" false (CName "RANAP_RAB_ID_t"); CM "transportLayerAddressReq1" true (CName "RANAP_TransportLayerAddress_t"); CM "iuTransportAssociationReq1" true (CName "RANAP_IuTransportAssociation_t"); CM "ass_RAB_Parameters" true (CName "RANAP_Ass_RAB_Parameters_t"); CM "iE_Extensions" true (CName "RANAP_ProtocolExtensionContainer_t"); CM "_asn_ctx" false (CName "asn_struct_ctx_t")]);
  (* include/osmocom/ranap/RANAP_RAB-SetupItem-EnhancedRelocCompleteRes.h:29-44 *)
  ("RANAP_RAB_SetupItem_EnhancedRelocCompleteRes", [CM "rAB_ID" false (CName "RANAP_RAB_ID_t"); CM "rAB_Parameters" true (CName "RANAP_RAB_Parameters_t"); CM "userPlaneInformation" false (CName "RANAP_UserPlaneInformation_t"); CM "transportLayerAddressRes1" true (CName "RANAP_TransportLayerAddress_t"); CM "iuTransportAssociationRes1" true (CName "RANAP_IuTransportAssociation_t"); CM "rab2beReleasedList" true (CName "RANAP_RAB_ToBeReleasedList_EnhancedRelocCompleteRes_t"); CM "iE_Extensions" true (CName "RANAP_ProtocolExtensionContainer_t"); CM "_asn_ctx" false (CName "asn_struct_ctx_t")]);
  (* include/osmocom/ranap/RANAP_RAB-SetupItem-RelocReq.h:32-50 *)
  ("RANAP_RAB_SetupItem_RelocReq", [CM "rAB_ID" false (CName "RANAP_RAB_ID_t"); CM "nAS_SynchronisationIndicator" true (CName "RANAP_NAS_SynchronisationIndicator_t"); CM "rAB_Parameters" false (CName "RANAP_RAB_Parameters_t"); CM "dataVolumeReportingIndication" true (CName "RANAP_DataVolumeReportingIndication_t"); CM "pDP_TypeInformation" true (CName "RANAP_PDP_TypeInformation_t"); CM "userPlaneInformation" false (CName "RANAP_UserPlaneInformation_t"); CM "transportLayerAddress" false (CName "RANAP_TransportLayerAddress_t"); CM "iuTransportAssociation" false (CName "RANAP_IuTransportAssociation_t"); CM "service_Handover" true (CName "RANAP_Service_Handover_t"); CM "iE_Extensions" true (CName "RANAP_ProtocolExtensionContainer_t"); CM "_asn_ctx" false (CName "asn_struct_ctx_t")]);
  (* include/osmocom/ranap/RANAP_RAB-SetupItem-RelocReqAck.h:26-38 *)
  ("RANAP_RAB_SetupItem_RelocReqAck", [CM "rAB_ID" false (CName "RANAP_RAB_ID_t"); CM "transportLayerAddress" true (CName "RANAP_TransportLayerAddress_t"); CM "iuTransportAssociation" true (CName "RANAP_IuTransportAssociation_t"); CM "iE_Extensions" true (CName "RANAP_ProtocolExtensionContainer_t"); CM "_asn_ctx" false (CName "asn_struct_ctx_t")]);
  (* include/osmocom/ranap/RANAP_RAB-SetupList-EnhRelocInfoReq.h:25-39 *)
  ("RANAP_RAB_SetupList_EnhRelocInfoReq__raB_SetupList_EnhRelocInfoReq_ies", [CM "list" false (CList (CName "RANAP_IE_t")); CM "_asn_ctx" false (CName "asn_struct_ctx_t")]);
  (* include/osmocom/ranap/RANAP_RAB-SetupList-EnhRelocInfoReq.h:25-39 *)
  ("RANAP_RAB_SetupList_EnhRelocInfoReq", [CM "raB_SetupList_EnhRelocInfoReq_ies" false (CStruct "RANAP_RAB_SetupList_EnhRelocInfoReq__raB_SetupList_EnhRelocInfoReq_ies"); CM "_asn_ctx" false (CName "asn_struct_ctx_t")]);
  (* include/osmocom/ranap/RANAP_RAB-SetupList-EnhRelocInfoRes.h:25-39 *)
  ("RANAP_RAB_SetupList_EnhRelocInfoRes__raB_SetupList_EnhRelocInfoRes_ies", [CM "list" false (CList (CName "RANAP_IE_t")); CM "_asn_ctx" false (CName "asn_struct_ctx_t")]);
  (* include/osmocom/ranap/RANAP_RAB-SetupList-EnhRelocInfoRes.h:25-39 *)
  ("RANAP_RAB_SetupList_EnhRelocInfoRes", [CM "raB_SetupList_EnhRelocInfoRes_ies" false (CStruct "RANAP_RAB_SetupList_EnhRelocInfoRes__raB_SetupList_EnhRelocInfoRes_ies"); CM "_asn_ctx" false (CName "asn_struct_ctx_t")]);
  (* include/osmocom/ranap/RANAP_RAB-SetupList-EnhancedRelocCompleteReq.h:25-39 *)
  ("RANAP_RAB_SetupList_EnhancedRelocCompleteReq__raB_SetupList_EnhancedRelocCompleteReq_ies", [CM "list" false (CList (CName "RANAP_IE_t")); CM "_asn_ctx" false (CName "asn_struct_ctx_t")]);
  (* include/osmocom/ranap/RANAP_RAB-SetupList-EnhancedRelocCompleteReq.h:25-39 *)
  ("RANAP_RAB_SetupList_EnhancedRelocCompleteReq", [CM "raB_SetupList_EnhancedRelocCompleteReq_ies" false (CStruct "RANAP_RAB_SetupList_EnhancedRelocCompleteReq__raB_SetupList_EnhancedRelocCompleteReq_ies"); CM "_asn_ctx" false (CName "asn_struct_ctx_t")]);
  (* include/osmocom/ranap/RANAP_RAB-SetupList-EnhancedRelocCompleteRes.h:25-39 *)
  ("RANAP_RAB_SetupList_EnhancedRelocCompleteRes__raB_SetupList_EnhancedRelocCompleteRes_ies", [CM "list" false (CList (CName "RANAP_IE_t")); CM "_asn_ctx" false (CName "asn_struct_ctx_t")]);
  (* include/osmocom/ranap/RANAP_RAB-SetupList-EnhancedRelocCompleteRes.h:25-39 *)
  ("RANAP_RAB_SetupList_EnhancedRelocCompleteRes", [CM "raB_SetupList_EnhancedRelocCompleteRes_ies" false (CStruct "RANAP_RAB_SetupList_EnhancedRelocCompleteRes__raB_SetupList_EnhancedRelocCompleteRes_ies"); CM "_asn_ctx" false (CName "asn_struct_ctx_t")]);
  (* include/osmocom/ranap/RANAP_RAB-SetupList-RelocReq.h:25-39 *)
  ("RANAP_RAB_SetupList_RelocReq__raB_SetupList_RelocReq_ies", [CM "list" false (CList (CName "RANAP_IE_t")); CM "_asn_ctx" false (CName "asn_struct_ctx_t")]);
  (* include/osmocom/ranap/RANAP_RAB-SetupList-RelocReq.h:25-39 *)
  ("RANAP_RAB_SetupList_RelocReq", [CM "raB_SetupList_RelocReq_ies" false (CStruct "RANAP_RAB_SetupList_RelocReq__raB_SetupList_RelocReq_ies"); CM "_asn_ctx" false (CName "asn_struct_ctx_t")]);
  (* include/osmocom/ranap/RANAP_RAB-SetupList-RelocReqAck.h:25-39 *)
  ("RANAP_RAB_SetupList_RelocReqAck__raB_SetupList_RelocReqAck_ies", [CM "list" false (CList (CName "RANAP_IE_t")); CM "_asn_ctx" false (CName "asn_struct_ctx_t")]);
  (* include/osmocom/ranap/RANAP_RAB-SetupList-RelocReqAck.h:25-39 *)
  ("RANAP_RAB_SetupList_RelocReqAck", [CM "raB_SetupList_RelocReqAck_ies" false (CStruct "RANAP_RAB_SetupList_RelocReqAck__raB_SetupList_RelocReqAck_ies"); CM "_asn_ctx" false (CName "asn_struct_ctx_t")]);
  (* include/osmocom/ranap/RANAP_RAB-SetupOrModifiedItem.h:27-40 *)
  ("RANAP_RAB_SetupOrModifiedItem", [CM "rAB_ID" false (CName "RANAP_RAB_ID_t"); CM "transportLayerAddress" true (CName "RANAP_TransportLayerAddress_t"); CM "iuTransportAssociation" true (CName "RANAP_IuTransportAssociation_t"); CM "dl_dataVolumes" true (CName "RANAP_DataVolumeList_t"); CM "iE_Extensions" true (CName "RANAP_ProtocolExtensionContainer_t"); CM "_asn_ctx" false (CName "asn_struct_ctx_t")]);
  (* include/osmocom/ranap/RANAP_RAB-SetupOrModifiedList.h:25-39 *)
  ("RANAP_RAB_SetupOrModifiedList__raB_SetupOrModifiedList_ies", [CM "list" false (CList (CName "RANAP_IE_t")); CM "_asn_ctx" false (CName "asn_struct_ctx_t")]);
  (* include/osmocom/ranap/RANAP_RAB-SetupOrModifiedList.h:25-39 *)
  ("RANAP_RAB_SetupOrModifiedList", [CM "raB_SetupOrModifiedList_ies" false (CStruct "RANAP_RAB_SetupOrModifiedList__raB_SetupOrModifiedList_ies"); CM "_asn_ctx" false (CName "asn_struct_ctx_t")]);
  (* include/osmocom/ranap/RANAP_RAB-SetupOrModifyItemFirst.h:29-44 *)
  ("RANAP_RAB_SetupOrModifyItemFirst", [CM "rAB_ID" false (CName "RANAP_RAB_ID_t"); CM "nAS_SynchronisationIndicator" true (CName "RANAP_NAS_SynchronisationIndicator_t"); CM "rAB_Parameters" true (CName "RANAP_RAB_Parameters_t"); CM "userPlaneInformation" true (CName "RANAP_UserPlaneInformation_t"); CM "transportLayerInformation" true (CName "RANAP_TransportLayerInformation_t"); CM "service_Handover" true (CName "RANAP_Service_Handover_t"); CM "iE_Extensions" true (CName "RANAP_ProtocolExtensionContainer_t"); CM "_asn_ctx" false (CName "asn_struct_ctx_t")]);
  (* include/osmocom/ranap/RANAP_RAB-SetupOrModifyItemSecond.h:29-44 *)
  ("RANAP_RAB_SetupOrModifyItemSecond", [CM "pDP_TypeInformation" true (CName "RANAP_PDP_TypeInformation_t"); CM "dataVolumeReportingIndication" true (CName "RANAP_DataVolumeReportingIndication_t"); CM "dl_GTP_PDU_SequenceNumber" true (CName "RANAP_DL_GTP_PDU_SequenceNumber_t"); CM "ul_GTP_PDU_SequenceNumber" true (CName "RANAP_UL_GTP_PDU_SequenceNumber_t"); CM "dl_N_PDU_SequenceNumber" true (CName "RANAP_DL_N_PDU_SequenceNumber_t"); CM "ul_N_PDU_SequenceNumber" true (CName "RANAP_UL_N_PDU_SequenceNumber_t"); CM "iE_Extensions" true (CName "RANAP_ProtocolExtensionContainer_t"); CM "_asn_ctx" false (CName "asn_struct_ctx_t")]);
  (* include/osmocom/ranap/RANAP_RAB-ToBeReleasedItem-EnhancedRelocCompleteRes.h:25-36 *)
  ("RANAP_RAB_ToBeReleasedItem_EnhancedRelocCompleteRes", [CM "rAB_ID" false (CName "RANAP_RAB_ID_t"); CM "cause" false (CName "RANAP_Cause_t"); CM "iE_Extensions" true (CName "RANAP_ProtocolExtensionContainer_t"); CM "_asn_ctx" false (CName "asn_struct_ctx_t")]);
  (* include/osmocom/ranap/RANAP_RAB-ToBeReleasedList-EnhancedRelocCompleteRes.h:25-39 *)
  ("RANAP_RAB_ToBeReleasedList_EnhancedRelocCompleteRes__raB_ToBeReleasedList_EnhancedRelocCompleteRes_ies", [CM "list" false (CList (CName "RANAP_IE_t")); CM "_asn_ctx" false (CName "asn_struct_ctx_t")]);
  (* include/osmocom/ranap/RANAP_RAB-ToBeReleasedList-EnhancedRelocCompleteRes.h:25-39 *)
  ("RANAP_RAB_ToBeReleasedList_EnhancedRelocCompleteRes", [CM "raB_ToBeReleasedList_EnhancedRelocCompleteRes_ies" false (CStruct "RANAP_RAB_ToBeReleasedList_EnhancedRelocCompleteRes__raB_ToBeReleasedList_EnhancedRelocCompleteRes_ies"); CM "_asn_ctx" false (CName "asn_struct_ctx_t")]);
  (* include/osmocom/ranap/RANAP_RAB-TrCH-Mapping.h:24-29 *)
  ("RANAP_RAB_TrCH_Mapping", [CM "list" false (CList (CName "RANAP_RAB_TrCH_MappingItem_t")); CM "_asn_ctx" false (CName "asn_struct_ctx_t")]);
  (* include/osmocom/ranap/RANAP_RAB-TrCH-MappingItem.h:25-36 *)
  ("RANAP_RAB_TrCH_MappingItem", [CM "rAB_ID" false (CName "RANAP_RAB_ID_t"); CM "trCH_ID_List" false (CName "RANAP_TrCH_ID_List_t"); CM "iE_Extensions" true (CName "RANAP_IE_Extensions_t"); CM "_asn_ctx" false (CName "asn_struct_ctx_t")]);
  (* include/osmocom/ranap/RANAP_RABDataVolumeReport-Value.h:25-36 *)
  ("RANAP_RABDataVolumeReport_Value", [CM "dl_UnsuccessfullyTransmittedDataVolume" false (CName "RANAP_UnsuccessfullyTransmittedDataVolume_t"); CM "dataVolumeReference" true (CName "RANAP_DataVolumeReference_t"); CM "iE_Extensions" true (CName "RANAP_IE_Extensions_t"); CM "_asn_ctx" false (CName "asn_struct_ctx_t")]);
  (* include/osmocom/ranap/RANAP_RABDataVolumeReport.h:24-29 *)
  ("RANAP_RABDataVolumeReport", [CM "list" false (CList (CName "RANAP_RABDataVolumeReport_Value_t")); CM "_asn_ctx" false (CName "asn_struct_ctx_t")]);
  (* include/osmocom/ranap/RANAP_RABParametersList-Value.h:27-40 *)
  ("RANAP_RABParametersList_Value", [CM "rab_Id" false (CName "RANAP_RAB_ID_t"); CM "cn_domain" false (CName "RANAP_CN_DomainIndicator_t"); CM "rabDataVolumeReport" true (CName "RANAP_RABDataVolumeReport_t"); CM "upInformation" true (CName "RANAP_UPInformation_t"); CM "iE_Extensions" true (CName "RANAP_IE_Extensions_t"); CM "_asn_ctx" false (CName "asn_struct_ctx_t")]);
  (* include/osmocom/ranap/RANAP_RABParametersList.h:24-29 *)
  ("RANAP_RABParametersList", [CM "list" false (CList (CName "RANAP_RABParametersList_Value_t")); CM "_asn_ctx" false (CName "asn_struct_ctx_t")]);
  (* include/osmocom/ranap/RANAP_RABased.h:24-34 *)
  ("RANAP_RABased", [CM "raiList" false (CName "RANAP_RAI_List_t"); CM "iE_Extensions" true (CName "RANAP_IE_Extensions_t"); CM "_asn_ctx" false (CName "asn_struct_ctx_t")]);
  (* include/osmocom/ranap/RANAP_RABs-ContextFailedtoTransferItem.h:25-36 *)
  ("RANAP_RABs_ContextFailedtoTransferItem", [CM "rAB_ID" false (CName "RANAP_RAB_ID_t"); CM "cause" false (CName "RANAP_Cause_t"); CM "iE_Extensions" true (CName "RANAP_ProtocolExtensionContainer_t"); CM "_asn_ctx" false (CName "asn_struct_ctx_t")]);
  (* include/osmocom/ranap/RANAP_RABs-ContextFailedtoTransferList.h:25-39 *)
  ("RANAP_RABs_ContextFailedtoTransferList__raBs_ContextFailedtoTransferList_ies", [CM "list" false (CList (CName "RANAP_IE_t")); CM "_asn_ctx" false (CName "asn_struct_ctx_t")]);
  (* include/osmocom/ranap/RANAP_RABs-ContextFailedtoTransferList.h:25-39 *)
  ("RANAP_RABs_ContextFailedtoTransferList", [CM "raBs_ContextFailedtoTransferList_ies" false (CStruct "RANAP_RABs_ContextFailedtoTransferList__raBs_ContextFailedtoTransferList_ies"); CM "_asn_ctx" false (CName "asn_struct_ctx_t")]);
  (* include/osmocom/ranap/RANAP_RABs-failed-to-reportItem.h:25-36 *)
  ("RANAP_RABs_failed_to_reportItem", [CM "rAB_ID" false (CName "RANAP_RAB_ID_t"); CM "cause" false (CName "RANAP_Cause_t"); CM "iE_Extensions" true (CName "RANAP_ProtocolExtensionContainer_t"); CM "_asn_ctx" false (CName "asn_struct_ctx_t")]);
  (* include/osmocom/ranap/RANAP_RABs-failed-to-reportList.h:25-39 *)
  ("RANAP_RABs_failed_to_reportList__raBs_failed_to_reportList_ies", [CM "list" false (CList (CName "RANAP_IE_t")); CM "_asn_ctx" false (CName "asn_struct_ctx_t")]);
  (* include/osmocom/ranap/RANAP_RABs-failed-to-reportList.h:25-39 *)
  ("RANAP_RABs_failed_to_reportList", [CM "raBs_failed_to_reportList_ies" false (CStruct "RANAP_RABs_failed_to_reportList__raBs_failed_to_reportList_ies"); CM "_asn_ctx" false (CName "asn_struct_ctx_t")]);
  (* include/osmocom/ranap/RANAP_RAI-List.h:24-29 *)
  ("RANAP_RAI_List", [CM "list" false (CList (CName "RANAP_RAI_t")); CM "_asn_ctx" false (CName "asn_struct_ctx_t")]);
  (* include/osmocom/ranap/RANAP_RAI.h:25-36 *)
  ("RANAP_RAI", [CM "lAI" false (CName "RANAP_LAI_t"); CM "rAC" false (CName "RANAP_RAC_t"); CM "iE_Extensions" true (CName "RANAP_IE_Extensions_t"); CM "_asn_ctx" false (CName "asn_struct_ctx_t")]);
  (* include/osmocom/ranap/RANAP_RAListofIdleModeUEs.h:40-53 *)
  ("RANAP_RAListofIdleModeUEs", [CM "present" false (CName "RANAP_RAListofIdleModeUEs_PR"); CM "choice" false (CUnion "RANAP_RAListofIdleModeUEs_u"); CM "_asn_ctx" false (CName "asn_struct_ctx_t")]);
  (* include/osmocom/ranap/RANAP_RAListwithNoIdleModeUEsAnyMore.h:24-29 *)
  ("RANAP_RAListwithNoIdleModeUEsAnyMore", [CM "list" false (CList (CName "RANAP_RAC_t")); CM "_asn_ctx" false (CName "asn_struct_ctx_t")]);
  (* include/osmocom/ranap/RANAP_RANAP-EnhancedRelocationInformationRequest.h:25-39 *)
  ("RANAP_RANAP_EnhancedRelocationInformationRequest__ranaP_EnhancedRelocationInformationRequest_ies", [CM "list" false (CList (CName "RANAP_IE_t")); CM "_asn_ctx" false (CName "asn_struct_ctx_t")]);
  (* include/osmocom/ranap/RANAP_RANAP-EnhancedRelocationInformationRequest.h:25-39 *)
  ("RANAP_RANAP_EnhancedRelocationInformationRequest", [CM "ranaP_EnhancedRelocationInformationRequest_ies" false (CStruct "RANAP_RANAP_EnhancedRelocationInformationRequest__ranaP_EnhancedRelocationInformationRequest_ies"); CM "_asn_ctx" false (CName "asn_struct_ctx_t")]);
  (* include/osmocom/ranap/RANAP_RANAP-EnhancedRelocationInformationResponse.h:25-39 *)
  ("RANAP_RANAP_EnhancedRelocationInformationResponse__ranaP_EnhancedRelocationInformationResponse_ies", [CM "list" false (CList (CName "RANAP_IE_t")); CM "_asn_ctx" false (CName "asn_struct_ctx_t")]);
  (* include/osmocom/ranap/RANAP_RANAP-EnhancedRelocationInformationResponse.h:25-39 *)
  ("RANAP_RANAP_EnhancedRelocationInformationResponse", [CM "ranaP_EnhancedRelocationInformationResponse_ies" false (CStruct "RANAP_RANAP_EnhancedRelocationInformationResponse__ranaP_EnhancedRelocationInformationResponse_ies"); CM "_asn_ctx" false (CName "asn_struct_ctx_t")]);
  (* include/osmocom/ranap/RANAP_RANAP-PDU.h:37-52 *)
  ("RANAP_RANAP_PDU", [CM "present" false (CName "RANAP_RANAP_PDU_PR"); CM "choice" false (CUnion "RANAP_RANAP_PDU_u"); CM "_asn_ctx" false (CName "asn_struct_ctx_t")]);
  (* include/osmocom/ranap/RANAP_RANAP-RelocationInformation.h:25-39 *)
  ("RANAP_RANAP_RelocationInformation__ranaP_RelocationInformation_ies", [CM "list" false (CList (CName "RANAP_IE_t")); CM "_asn_ctx" false (CName "asn_struct_ctx_t")]);
  (* include/osmocom/ranap/RANAP_RANAP-RelocationInformation.h:25-39 *)
  ("RANAP_RANAP_RelocationInformation", [CM "ranaP_RelocationInformation_ies" false (CStruct "RANAP_RANAP_RelocationInformation__ranaP_RelocationInformation_ies"); CM "_asn_ctx" false (CName "asn_struct_ctx_t")]);
  (* include/osmocom/ranap/RANAP_RAofIdleModeUEs.h:24-29 *)
  ("RANAP_RAofIdleModeUEs", [CM "list" false (CList (CName "RANAP_RAC_t")); CM "_asn_ctx" false (CName "asn_struct_ctx_t")]);
  (* include/osmocom/ranap/RANAP_RIM-Transfer.h:25-32 *)
  ("RANAP_RIM_Transfer", [CM "rIMInformation" false (CName "RANAP_RIMInformation_t"); CM "rIMRoutingAddress" true (CName "RANAP_RIMRoutingAddress_t"); CM "iE_Extensions" true (CName "RANAP_IE_Extensions_t"); CM "_asn_ctx" false (CName "asn_struct_ctx_t")]);
  (* include/osmocom/ranap/RANAP_RIMRoutingAddress.h:34-48 *)
  ("RANAP_RIMRoutingAddress", [CM "present" false (CName "RANAP_RIMRoutingAddress_PR"); CM "choice" false (CUnion "RANAP_RIMRoutingAddress_u"); CM "_asn_ctx" false (CName "asn_struct_ctx_t")]);
  (* include/osmocom/ranap/RANAP_RNCTraceInformation.h:32-40 *)
  ("RANAP_RNCTraceInformation", [CM "traceReference" false (CName "RANAP_TraceReference_t"); CM "traceActivationIndicato" false (CName "long"); CM "equipmentsToBeTraced" true (CName "RANAP_EquipmentsToBeTraced_t"); CM "iE_Extensions" true (CName "RANAP_IE_Extensions_t"); CM "_asn_ctx" false (CName "asn_struct_ctx_t")]);
  (* include/osmocom/ranap/RANAP_RNSAPRelocationParameters.h:27-40 *)
  ("RANAP_RNSAPRelocationParameters", [CM "rabParmetersList" true (CName "RANAP_RABParametersList_t"); CM "locationReporting" true (CName "RANAP_LocationReportingTransferInformation_t"); CM "traceInformation" true (CName "RANAP_TraceInformation_t"); CM "sourceSAI" true (CName "RANAP_SAI_t"); CM "iE_Extensions" true (CName "RANAP_IE_Extensions_t"); CM "_asn_ctx" false (CName "asn_struct_ctx_t")]);
  (* include/osmocom/ranap/RANAP_RSRQ-Type.h:23-29 *)
  ("RANAP_RSRQ_Type", [CM "allSymbols" false (CName "BOOLEAN_t"); CM "wideBand" false (CName "BOOLEAN_t"); CM "_asn_ctx" false (CName "asn_struct_ctx_t")]);
  (* include/osmocom/ranap/RANAP_RSRVCC-Information.h:25-36 *)
  ("RANAP_RSRVCC_Information", [CM "nonce" false (CName "BIT_STRING_t"); CM "iMSInformation" false (CName "OCTET_STRING_t"); CM "iE_Extensions" true (CName "RANAP_IE_Extensions_t"); CM "_asn_ctx" false (CName "asn_struct_ctx_t")]);
  (* include/osmocom/ranap/RANAP_RedirectionIndication.h:25-39 *)
  ("RANAP_RedirectionIndication__redirectionIndication_ies", [CM "list" false (CList (CName "RANAP_IE_t")); CM "_asn_ctx" false (CName "asn_struct_ctx_t")]);
  (* include/osmocom/ranap/RANAP_RedirectionIndication.h:25-39 *)
  ("RANAP_RedirectionIndication", [CM "redirectionIndication_ies" false (CStruct "RANAP_RedirectionIndication__redirectionIndication_ies"); CM "_asn_ctx" false (CName "asn_struct_ctx_t")]);
  (* include/osmocom/ranap/RANAP_RelocationCancel.h:25-39 *)
  ("RANAP_RelocationCancel__relocationCancel_ies", [CM "list" false (CList (CName "RANAP_IE_t")); CM "_asn_ctx" false (CName "asn_struct_ctx_t")]);
  (* include/osmocom/ranap/RANAP_RelocationCancel.h:25-39 *)
  ("RANAP_RelocationCancel", [CM "relocationCancel_ies" false (CStruct "RANAP_RelocationCancel__relocationCancel_ies"); CM "_asn_ctx" false (CName "asn_struct_ctx_t")]);
  (* include/osmocom/ranap/RANAP_RelocationCancelAcknowledge.h:25-39 *)
  ("RANAP_RelocationCancelAcknowledge__relocationCancelAcknowledge_ies", [CM "list" false (CList (CName "RANAP_IE_t")); CM "_asn_ctx" false (CName "asn_struct_ctx_t")]);
  (* include/osmocom/ranap/RANAP_RelocationCancelAcknowledge.h:25-39 *)
  ("RANAP_RelocationCancelAcknowledge", [CM "relocationCancelAcknowledge_ies" false (CStruct "RANAP_RelocationCancelAcknowledge__relocationCancelAcknowledge_ies"); CM "_asn_ctx" false (CName "asn_struct_ctx_t")]);
  (* include/osmocom/ranap/RANAP_RelocationCommand.h:25-39 *)
  ("RANAP_RelocationCommand__relocationCommand_ies", [CM "list" false (CList (CName "RANAP_IE_t")); CM "_asn_ctx" false (CName "asn_struct_ctx_t")]);
  (* include/osmocom/ranap/RANAP_RelocationCommand.h:25-39 *)
  ("RANAP_RelocationCommand", [CM "relocationCommand_ies" false (CStruct "RANAP_RelocationCommand__relocationCommand_ies"); CM "_asn_ctx" false (CName "asn_struct_ctx_t")]);
  (* include/osmocom/ranap/RANAP_RelocationComplete.h:25-39 *)
  ("RANAP_RelocationComplete__relocationComplete_ies", [CM "list" false (CList (CName "RANAP_IE_t")); CM "_asn_ctx" false (CName "asn_struct_ctx_t")]);
  (* include/osmocom/ranap/RANAP_RelocationComplete.h:25-39 *)
  ("RANAP_RelocationComplete", [CM "relocationComplete_ies" false (CStruct "RANAP_RelocationComplete__relocationComplete_ies"); CM "_asn_ctx" false (CName "asn_struct_ctx_t")]);
  (* include/osmocom/ranap/RANAP_RelocationDetect.h:25-39 *)
  ("RANAP_RelocationDetect__relocationDetect_ies", [CM "list" false (CList (CName "RANAP_IE_t")); CM "_asn_ctx" false (CName "asn_struct_ctx_t")]);
  (* include/osmocom/ranap/RANAP_RelocationDetect.h:25-39 *)
  ("RANAP_RelocationDetect", [CM "relocationDetect_ies" false (CStruct "RANAP_RelocationDetect__relocationDetect_ies"); CM "_asn_ctx" false (CName "asn_struct_ctx_t")]);
  (* include/osmocom/ranap/RANAP_RelocationFailure.h:25-39 *)
  ("RANAP_RelocationFailure__relocationFailure_ies", [CM "list" false (CList (CName "RANAP_IE_t")); CM "_asn_ctx" false (CName "asn_struct_ctx_t")]);
  (* include/osmocom/ranap/RANAP_RelocationFailure.h:25-39 *)
  ("RANAP_RelocationFailure", [CM "relocationFailure_ies" false (CStruct "RANAP_RelocationFailure__relocationFailure_ies"); CM "_asn_ctx" false (CName "asn_struct_ctx_t")]);
  (* include/osmocom/ranap/RANAP_RelocationPreparationFailure.h:25-39 *)
  ("RANAP_RelocationPreparationFailure__relocationPreparationFailure_ies", [CM "list" false (CList (CName "RANAP_IE_t")); CM "_asn_ctx" false (CName "asn_struct_ctx_t")]);
  (* include/osmocom/ranap/RANAP_RelocationPreparationFailure.h:25-39 *)
  ("RANAP_RelocationPreparationFailure", [CM "relocationPreparationFailure_ies" false (CStruct "RANAP_RelocationPreparationFailure__relocationPreparationFailure_ies"); CM "_asn_ctx" false (CName "asn_struct_ctx_t")]);
  (* include/osmocom/ranap/RANAP_RelocationRequest.h:25-39 *)
  ("RANAP_RelocationRequest__relocationRequest_ies", [CM "list" false (CList (CName "RANAP_IE_t")); CM "_asn_ctx" false (CName "asn_struct_ctx_t")]);
  (* include/osmocom/ranap/RANAP_RelocationRequest.h:25-39 *)
  ("RANAP_RelocationRequest", [CM "relocationRequest_ies" false (CStruct "RANAP_RelocationRequest__relocationRequest_ies"); CM "_asn_ctx" false (CName "asn_struct_ctx_t")]);
  (* include/osmocom/ranap/RANAP_RelocationRequestAcknowledge.h:25-39 *)
  ("RANAP_RelocationRequestAcknowledge__relocationRequestAcknowledge_ies", [CM "list" false (CList (CName "RANAP_IE_t")); CM "_asn_ctx" false (CName "asn_struct_ctx_t")]);
  (* include/osmocom/ranap/RANAP_RelocationRequestAcknowledge.h:25-39 *)
  ("RANAP_RelocationRequestAcknowledge", [CM "relocationRequestAcknowledge_ies" false (CStruct "RANAP_RelocationRequestAcknowledge__relocationRequestAcknowledge_ies"); CM "_asn_ctx" false (CName "asn_struct_ctx_t")]);
  (* include/osmocom/ranap/RANAP_RelocationRequired.h:25-39 *)
  ("RANAP_RelocationRequired__relocationRequired_ies", [CM "list" false (CList (CName "RANAP_IE_t")); CM "_asn_ctx" false (CName "asn_struct_ctx_t")]);
  (* include/osmocom/ranap/RANAP_RelocationRequired.h:25-39 *)
  ("RANAP_RelocationRequired", [CM "relocationRequired_ies" false (CStruct "RANAP_RelocationRequired__relocationRequired_ies"); CM "_asn_ctx" false (CName "asn_struct_ctx_t")]);
  (* include/osmocom/ranap/RANAP_RequestType.h:25-36 *)
  ("RANAP_RequestType", [CM "event" false (CName "RANAP_Event_t"); CM "reportArea" false (CName "RANAP_ReportArea_t"); CM "accuracyCode" true (CName "long"); CM "_asn_ctx" false (CName "asn_struct_ctx_t")]);
  (* include/osmocom/ranap/RANAP_Requested-RAB-Parameter-ExtendedGuaranteedBitrateList.h:24-29 *)
  ("RANAP_Requested_RAB_Parameter_ExtendedGuaranteedBitrateList", [CM "list" false (CList (CName "RANAP_ExtendedGuaranteedBitrate_t")); CM "_asn_ctx" false (CName "asn_struct_ctx_t")]);
  (* include/osmocom/ranap/RANAP_Requested-RAB-Parameter-ExtendedMaxBitrateList.h:24-29 *)
  ("RANAP_Requested_RAB_Parameter_ExtendedMaxBitrateList", [CM "list" false (CList (CName "RANAP_ExtendedMaxBitrate_t")); CM "_asn_ctx" false (CName "asn_struct_ctx_t")]);
  (* include/osmocom/ranap/RANAP_Requested-RAB-Parameter-GuaranteedBitrateList.h:24-29 *)
  ("RANAP_Requested_RAB_Parameter_GuaranteedBitrateList", [CM "list" false (CList (CName "RANAP_GuaranteedBitrate_t")); CM "_asn_ctx" false (CName "asn_struct_ctx_t")]);
  (* include/osmocom/ranap/RANAP_Requested-RAB-Parameter-MaxBitrateList.h:24-29 *)
  ("RANAP_Requested_RAB_Parameter_MaxBitrateList", [CM "list" false (CList (CName "RANAP_MaxBitrate_t")); CM "_asn_ctx" false (CName "asn_struct_ctx_t")]);
  (* include/osmocom/ranap/RANAP_Requested-RAB-Parameter-Values.h:25-36 *)
  ("RANAP_Requested_RAB_Parameter_Values", [CM "requestedMaxBitrates" true (CName "RANAP_Requested_RAB_Parameter_MaxBitrateList_t"); CM "requestedGuaranteedBitrates" true (CName "RANAP_Requested_RAB_Parameter_GuaranteedBitrateList_t"); CM "iE_Extensions" true (CName "RANAP_IE_Extensions_t"); CM "_asn_ctx" false (CName "asn_struct_ctx_t")]);
  (* include/osmocom/ranap/RANAP_RequestedMBMSIPMulticastAddressandAPNRequest.h:24-29 *)
  ("RANAP_RequestedMBMSIPMulticastAddressandAPNRequest", [CM "list" false (CList (CName "RANAP_MBMSIPMulticastAddressandAPNlist_t")); CM "_asn_ctx" false (CName "asn_struct_ctx_t")]);
  (* include/osmocom/ranap/RANAP_RequestedMulticastServiceList.h:24-29 *)
  ("RANAP_RequestedMulticastServiceList", [CM "list" false (CList (CName "RANAP_TMGI_t")); CM "_asn_ctx" false (CName "asn_struct_ctx_t")]);
  (* include/osmocom/ranap/RANAP_Reset.h:25-39 *)
  ("RANAP_Reset__reset_ies", [CM "list" false (CList (CName "RANAP_IE_t")); CM "_asn_ctx" false (CName "asn_struct_ctx_t")]);
  (* include/osmocom/ranap/RANAP_Reset.h:25-39 *)
  ("RANAP_Reset", [CM "reset_ies" false (CStruct "RANAP_Reset__reset_ies"); CM "_asn_ctx" false (CName "asn_struct_ctx_t")]);
  (* include/osmocom/ranap/RANAP_ResetAcknowledge.h:25-39 *)
  ("RANAP_ResetAcknowledge__resetAcknowledge_ies", [CM "list" false (CList (CName "RANAP_IE_t")); CM "_asn_ctx" false (CName "asn_struct_ctx_t")]);
  (* include/osmocom/ranap/RANAP_ResetAcknowledge.h:25-39 *)
  ("RANAP_ResetAcknowledge", [CM "resetAcknowledge_ies" false (CStruct "RANAP_ResetAcknowledge__resetAcknowledge_ies"); CM "_asn_ctx" false (CName "asn_struct_ctx_t")]);
  (* include/osmocom/ranap/RANAP_ResetResource.h:25-39 *)
  ("RANAP_ResetResource__resetResource_ies", [CM "list" false (CList (CName "RANAP_IE_t")); CM "_asn_ctx" false (CName "asn_struct_ctx_t")]);
  (* include/osmocom/ranap/RANAP_ResetResource.h:25-39 *)
  ("RANAP_ResetResource", [CM "resetResource_ies" false (CStruct "RANAP_ResetResource__resetResource_ies"); CM "_asn_ctx" false (CName "asn_struct_ctx_t")]);
  (* include/osmocom/ranap/RANAP_ResetResourceAckItem.h:24-34 *)
  ("RANAP_ResetResourceAckItem", [CM "iuSigConId" false (CName "RANAP_IuSignallingConnectionIdentifier_t"); CM "iE_Extensions" true (CName "RANAP_ProtocolExtensionContainer_t"); CM "_asn_ctx" false (CName "asn_struct_ctx_t")]);
  (* include/osmocom/ranap/RANAP_ResetResourceAckList.h:25-39 *)
  ("RANAP_ResetResourceAckList__resetResourceAckList_ies", [CM "list" false (CList (CName "RANAP_IE_t")); CM "_asn_ctx" false (CName "asn_struct_ctx_t")]);
  (* include/osmocom/ranap/RANAP_ResetResourceAckList.h:25-39 *)
  ("RANAP_ResetResourceAckList", [CM "resetResourceAckList_ies" false (CStruct "RANAP_ResetResourceAckList__resetResourceAckList_ies"); CM "_asn_ctx" false (CName "asn_struct_ctx_t")]);
  (* include/osmocom/ranap/RANAP_ResetResourceAcknowledge.h:25-39 *)
  ("RANAP_ResetResourceAcknowledge__resetResourceAcknowledge_ies", [CM "list" false (CList (CName "RANAP_IE_t")); CM "_asn_ctx" false (CName "asn_struct_ctx_t")]);
  (* include/osmocom/ranap/RANAP_ResetResourceAcknowledge.h:25-39 *)
  ("RANAP_ResetResourceAcknowledge", [CM "resetResourceAcknowledge_ies" false (CStruct "RANAP_ResetResourceAcknowledge__resetResourceAcknowledge_ies"); CM "_asn_ctx" false (CName "asn_struct_ctx_t")]);
  (* include/osmocom/ranap/RANAP_ResetResourceItem.h:24-34 *)
  ("RANAP_ResetResourceItem", [CM "iuSigConId" false (CName "RANAP_IuSignallingConnectionIdentifier_t"); CM "iE_Extensions" true (CName "RANAP_ProtocolExtensionContainer_t"); CM "_asn_ctx" false (CName "asn_struct_ctx_t")]);
  (* include/osmocom/ranap/RANAP_ResetResourceList.h:25-39 *)
  ("RANAP_ResetResourceList__resetResourceList_ies", [CM "list" false (CList (CName "RANAP_IE_t")); CM "_asn_ctx" false (CName "asn_struct_ctx_t")]);
  (* include/osmocom/ranap/RANAP_ResetResourceList.h:25-39 *)
  ("RANAP_ResetResourceList", [CM "resetResourceList_ies" false (CStruct "RANAP_ResetResourceList__resetResourceList_ies"); CM "_asn_ctx" false (CName "asn_struct_ctx_t")]);
  (* include/osmocom/ranap/RANAP_ResidualBitErrorRatio.h:24-31 *)
  ("RANAP_ResidualBitErrorRatio", [CM "mantissa" false (CName "long"); CM "exponent" false (CName "long"); CM "iE_Extensions" true (CName "RANAP_IE_Extensions_t"); CM "_asn_ctx" false (CName "asn_struct_ctx_t")]);
  (* include/osmocom/ranap/RANAP_SAI.h:26-34 *)
  ("RANAP_SAI", [CM "pLMNidentity" false (CName "RANAP_PLMNidentity_t"); CM "lAC" false (CName "RANAP_LAC_t"); CM "sAC" false (CName "RANAP_SAC_t"); CM "iE_Extensions" true (CName "RANAP_IE_Extensions_t"); CM "_asn_ctx" false (CName "asn_struct_ctx_t")]);
  (* include/osmocom/ranap/RANAP_SDU-ErrorRatio.h:24-31 *)
  ("RANAP_SDU_ErrorRatio", [CM "mantissa" false (CName "long"); CM "exponent" false (CName "long"); CM "iE_Extensions" true (CName "RANAP_IE_Extensions_t"); CM "_asn_ctx" false (CName "asn_struct_ctx_t")]);
  (* include/osmocom/ranap/RANAP_SDU-FormatInformationParameterItem.h:25-36 *)
  ("RANAP_SDU_FormatInformationParameterItem", [CM "subflowSDU_Size" true (CName "RANAP_SubflowSDU_Size_t"); CM "rAB_SubflowCombinationBitRate" true (CName "RANAP_RAB_SubflowCombinationBitRate_t"); CM "iE_Extensions" true (CName "RANAP_IE_Extensions_t"); CM "_asn_ctx" false (CName "asn_struct_ctx_t")]);
  (* include/osmocom/ranap/RANAP_SDU-FormatInformationParameters.h:24-29 *)
  ("RANAP_SDU_FormatInformationParameters", [CM "list" false (CList (CName "RANAP_SDU_FormatInformationParameterItem_t")); CM "_asn_ctx" false (CName "asn_struct_ctx_t")]);
  (* include/osmocom/ranap/RANAP_SDU-ParameterItem.h:27-40 *)
  ("RANAP_SDU_ParameterItem", [CM "sDU_ErrorRatio" true (CName "RANAP_SDU_ErrorRatio_t"); CM "residualBitErrorRatio" false (CName "RANAP_ResidualBitErrorRatio_t"); CM "deliveryOfErroneousSDU" false (CName "RANAP_DeliveryOfErroneousSDU_t"); CM "sDU_FormatInformationParameters" true (CName "RANAP_SDU_FormatInformationParameters_t"); CM "iE_Extensions" true (CName "RANAP_IE_Extensions_t"); CM "_asn_ctx" false (CName "asn_struct_ctx_t")]);
  (* include/osmocom/ranap/RANAP_SDU-Parameters.h:24-29 *)
  ("RANAP_SDU_Parameters", [CM "list" false (CList (CName "RANAP_SDU_ParameterItem_t")); CM "_asn_ctx" false (CName "asn_struct_ctx_t")]);
  (* include/osmocom/ranap/RANAP_SNA-Access-Information.h:24-34 *)
  ("RANAP_SNA_Access_Information", [CM "authorisedPLMNs" false (CName "RANAP_AuthorisedPLMNs_t"); CM "iE_Extensions" true (CName "RANAP_IE_Extensions_t"); CM "_asn_ctx" false (CName "asn_struct_ctx_t")]);
  (* include/osmocom/ranap/RANAP_SRB-TrCH-Mapping.h:24-29 *)
  ("RANAP_SRB_TrCH_Mapping", [CM "list" false (CList (CName "RANAP_SRB_TrCH_MappingItem_t")); CM "_asn_ctx" false (CName "asn_struct_ctx_t")]);
  (* include/osmocom/ranap/RANAP_SRB-TrCH-MappingItem.h:25-36 *)
  ("RANAP_SRB_TrCH_MappingItem", [CM "sRB_ID" false (CName "RANAP_SRB_ID_t"); CM "trCH_ID" false (CName "RANAP_TrCH_ID_t"); CM "iE_Extensions" true (CName "RANAP_IE_Extensions_t"); CM "_asn_ctx" false (CName "asn_struct_ctx_t")]);
  (* include/osmocom/ranap/RANAP_SRNS-ContextRequest.h:25-39 *)
  ("RANAP_SRNS_ContextRequest__srnS_ContextRequest_ies", [CM "list" false (CList (CName "RANAP_IE_t")); CM "_asn_ctx" false (CName "asn_struct_ctx_t")]);
  (* include/osmocom/ranap/RANAP_SRNS-ContextRequest.h:25-39 *)
  ("RANAP_SRNS_ContextRequest", [CM "srnS_ContextRequest_ies" false (CStruct "RANAP_SRNS_ContextRequest__srnS_ContextRequest_ies"); CM "_asn_ctx" false (CName "asn_struct_ctx_t")]);
  (* include/osmocom/ranap/RANAP_SRNS-ContextResponse.h:25-39 *)
  ("RANAP_SRNS_ContextResponse__srnS_ContextResponse_ies", [CM "list" false (CList (CName "RANAP_IE_t")); CM "_asn_ctx" false (CName "asn_struct_ctx_t")]);
  (* include/osmocom/ranap/RANAP_SRNS-ContextResponse.h:25-39 *)
  ("RANAP_SRNS_ContextResponse", [CM "srnS_ContextResponse_ies" false (CStruct "RANAP_SRNS_ContextResponse__srnS_ContextResponse_ies"); CM "_asn_ctx" false (CName "asn_struct_ctx_t")]);
  (* include/osmocom/ranap/RANAP_SRNS-DataForwardCommand.h:25-39 *)
  ("RANAP_SRNS_DataForwardCommand__srnS_DataForwardCommand_ies", [CM "list" false (CList (CName "RANAP_IE_t")); CM "_asn_ctx" false (CName "asn_struct_ctx_t")]);
  (* include/osmocom/ranap/RANAP_SRNS-DataForwardCommand.h:25-39 *)
  ("RANAP_SRNS_DataForwardCommand", [CM "srnS_DataForwardCommand_ies" false (CStruct "RANAP_SRNS_DataForwardCommand__srnS_DataForwardCommand_ies"); CM "_asn_ctx" false (CName "asn_struct_ctx_t")]);
  (* include/osmocom/ranap/RANAP_SRVCC-CSKeysRequest.h:25-39 *)
  ("RANAP_SRVCC_CSKeysRequest__srvcC_CSKeysRequest_ies", [CM "list" false (CList (CName "RANAP_IE_t")); CM "_asn_ctx" false (CName "asn_struct_ctx_t")]);
  (* include/osmocom/ranap/RANAP_SRVCC-CSKeysRequest.h:25-39 *)
  ("RANAP_SRVCC_CSKeysRequest", [CM "srvcC_CSKeysRequest_ies" false (CStruct "RANAP_SRVCC_CSKeysRequest__srvcC_CSKeysRequest_ies"); CM "_asn_ctx" false (CName "asn_struct_ctx_t")]);
  (* include/osmocom/ranap/RANAP_SRVCC-CSKeysResponse.h:25-39 *)
  ("RANAP_SRVCC_CSKeysResponse__srvcC_CSKeysResponse_ies", [CM "list" false (CList (CName "RANAP_IE_t")); CM "_asn_ctx" false (CName "asn_struct_ctx_t")]);
  (* include/osmocom/ranap/RANAP_SRVCC-CSKeysResponse.h:25-39 *)
  ("RANAP_SRVCC_CSKeysResponse", [CM "srvcC_CSKeysResponse_ies" false (CStruct "RANAP_SRVCC_CSKeysResponse__srvcC_CSKeysResponse_ies"); CM "_asn_ctx" false (CName "asn_struct_ctx_t")]);
  (* include/osmocom/ranap/RANAP_SRVCC-Information.h:24-34 *)
  ("RANAP_SRVCC_Information", [CM "nonce" false (CName "BIT_STRING_t"); CM "iE_Extensions" true (CName "RANAP_IE_Extensions_t"); CM "_asn_ctx" false (CName "asn_struct_ctx_t")]);
  (* include/osmocom/ranap/RANAP_SecurityModeCommand.h:25-39 *)
  ("RANAP_SecurityModeCommand__securityModeCommand_ies", [CM "list" false (CList (CName "RANAP_IE_t")); CM "_asn_ctx" false (CName "asn_struct_ctx_t")]);
  (* include/osmocom/ranap/RANAP_SecurityModeCommand.h:25-39 *)
  ("RANAP_SecurityModeCommand", [CM "securityModeCommand_ies" false (CStruct "RANAP_SecurityModeCommand__securityModeCommand_ies"); CM "_asn_ctx" false (CName "asn_struct_ctx_t")]);
  (* include/osmocom/ranap/RANAP_SecurityModeComplete.h:25-39 *)
  ("RANAP_SecurityModeComplete__securityModeComplete_ies", [CM "list" false (CList (CName "RANAP_IE_t")); CM "_asn_ctx" false (CName "asn_struct_ctx_t")]);
  (* include/osmocom/ranap/RANAP_SecurityModeComplete.h:25-39 *)
  ("RANAP_SecurityModeComplete", [CM "securityModeComplete_ies" false (CStruct "RANAP_SecurityModeComplete__securityModeComplete_ies"); CM "_asn_ctx" false (CName "asn_struct_ctx_t")]);
  (* include/osmocom/ranap/RANAP_SecurityModeReject.h:25-39 *)
  ("RANAP_SecurityModeReject__securityModeReject_ies", [CM "list" false (CList (CName "RANAP_IE_t")); CM "_asn_ctx" false (CName "asn_struct_ctx_t")]);
  (* include/osmocom/ranap/RANAP_SecurityModeReject.h:25-39 *)
  ("RANAP_SecurityModeReject", [CM "securityModeReject_ies" false (CStruct "RANAP_SecurityModeReject__securityModeReject_ies"); CM "_asn_ctx" false (CName "asn_struct_ctx_t")]);
  (* include/osmocom/ranap/RANAP_Shared-Network-Information.h:24-34 *)
  ("RANAP_Shared_Network_Information", [CM "pLMNs_in_shared_network" false (CName "RANAP_PLMNs_in_shared_network_t"); CM "iE_Extensions" true (CName "RANAP_IE_Extensions_t"); CM "_asn_ctx" false (CName "asn_struct_ctx_t")]);
  (* include/osmocom/ranap/RANAP_SourceCellID.h:33-46 *)
  ("RANAP_SourceCellID", [CM "present" false (CName "RANAP_SourceCellID_PR"); CM "choice" false (CUnion "RANAP_SourceCellID_u"); CM "_asn_ctx" false (CName "asn_struct_ctx_t")]);
  (* include/osmocom/ranap/RANAP_SourceID.h:33-46 *)
  ("RANAP_SourceID", [CM "present" false (CName "RANAP_SourceID_PR"); CM "choice" false (CUnion "RANAP_SourceID_u"); CM "_asn_ctx" false (CName "asn_struct_ctx_t")]);
  (* include/osmocom/ranap/RANAP_SourceRNC-ID.h:25-32 *)
  ("RANAP_SourceRNC_ID", [CM "pLMNidentity" false (CName "RANAP_PLMNidentity_t"); CM "rNC_ID" false (CName "RANAP_RNC_ID_t"); CM "iE_Extensions" true (CName "RANAP_IE_Extensions_t"); CM "_asn_ctx" false (CName "asn_struct_ctx_t")]);
  (* include/osmocom/ranap/RANAP_SourceRNC-ToTargetRNC-TransparentContainer.h:33-54 *)
  ("RANAP_SourceRNC_ToTargetRNC_TransparentContainer", [CM "rRC_Container" false (CName "RANAP_RRC_Container_t"); CM "numberOfIuInstances" false (CName "RANAP_NumberOfIuInstances_t"); CM "relocationType" false (CName "RANAP_RelocationType_t"); CM "chosenIntegrityProtectionAlgorithm" true (CName "RANAP_ChosenIntegrityProtectionAlgorithm_t"); CM "integrityProtectionKey" true (CName "RANAP_IntegrityProtectionKey_t"); CM "chosenEncryptionAlgorithForSignalling" true (CName "RANAP_ChosenEncryptionAlgorithm_t"); CM "cipheringKey" true (CName "RANAP_EncryptionKey_t"); CM "chosenEncryptionAlgorithForCS" true (CName "RANAP_ChosenEncryptionAlgorithm_t"); CM "chosenEncryptionAlgorithForPS" true (CName "RANAP_ChosenEncryptionAlgorithm_t"); CM "d_RNTI" true (CName "RANAP_D_RNTI_t"); CM "targetCellId" true (CName "RANAP_TargetCellId_t"); CM "rAB_TrCH_Mapping" true (CName "RANAP_RAB_TrCH_Mapping_t"); CM "iE_Extensions" true (CName "RANAP_IE_Extensions_t"); CM "_asn_ctx" false (CName "asn_struct_ctx_t")]);
  (* include/osmocom/ranap/RANAP_SourceUTRANCellID.h:25-32 *)
  ("RANAP_SourceUTRANCellID", [CM "pLMNidentity" false (CName "RANAP_PLMNidentity_t"); CM "uTRANcellID" false (CName "RANAP_TargetCellId_t"); CM "iE_Extensions" true (CName "RANAP_IE_Extensions_t"); CM "_asn_ctx" false (CName "asn_struct_ctx_t")]);
  (* include/osmocom/ranap/RANAP_SuccessfulOutcome.h:25-32 *)
  ("RANAP_SuccessfulOutcome", [CM "procedureCode" false (CName "RANAP_ProcedureCode_t"); CM "criticality" false (CName "RANAP_Criticality_t"); CM "value" false (CName "ANY_t"); CM "_asn_ctx" false (CName "asn_struct_ctx_t")]);
  (* include/osmocom/ranap/RANAP_SupportedRAB-ParameterBitrateList.h:24-29 *)
  ("RANAP_SupportedRAB_ParameterBitrateList", [CM "list" false (CList (CName "RANAP_SupportedBitrate_t")); CM "_asn_ctx" false (CName "asn_struct_ctx_t")]);
  (* include/osmocom/ranap/RANAP_TAI.h:25-32 *)
  ("RANAP_TAI", [CM "pLMNidentity" false (CName "RANAP_PLMNidentity_t"); CM "tAC" false (CName "RANAP_TAC_t"); CM "iE_Extensions" true (CName "RANAP_IE_Extensions_t"); CM "_asn_ctx" false (CName "asn_struct_ctx_t")]);
  (* include/osmocom/ranap/RANAP_TMGI.h:25-32 *)
  ("RANAP_TMGI", [CM "pLMNidentity" false (CName "RANAP_PLMNidentity_t"); CM "serviceID" false (CName "OCTET_STRING_t"); CM "iE_Extensions" true (CName "RANAP_IE_Extensions_t"); CM "_asn_ctx" false (CName "asn_struct_ctx_t")]);
  (* include/osmocom/ranap/RANAP_TNLInformationEnhRelInfoReq.h:25-36 *)
  ("RANAP_TNLInformationEnhRelInfoReq", [CM "transportLayerAddress" false (CName "RANAP_TransportLayerAddress_t"); CM "iuTransportAssociation" false (CName "RANAP_IuTransportAssociation_t"); CM "iE_Extensions" true (CName "RANAP_ProtocolExtensionContainer_t"); CM "_asn_ctx" false (CName "asn_struct_ctx_t")]);
  (* include/osmocom/ranap/RANAP_TNLInformationEnhRelInfoRes.h:25-36 *)
  ("RANAP_TNLInformationEnhRelInfoRes", [CM "dl_forwardingTransportLayerAddress" false (CName "RANAP_TransportLayerAddress_t"); CM "dl_forwardingTransportAssociation" false (CName "RANAP_IuTransportAssociation_t"); CM "iE_Extensions" true (CName "RANAP_ProtocolExtensionContainer_t"); CM "_asn_ctx" false (CName "asn_struct_ctx_t")]);
  (* include/osmocom/ranap/RANAP_TargetENB-ID.h:26-38 *)
  ("RANAP_TargetENB_ID", [CM "pLMNidentity" false (CName "RANAP_PLMNidentity_t"); CM "eNB_ID" false (CName "RANAP_ENB_ID_t"); CM "iE_Extensions" true (CName "RANAP_IE_Extensions_t"); CM "selectedTAI" false (CName "RANAP_TAI_t"); CM "_asn_ctx" false (CName "asn_struct_ctx_t")]);
  (* include/osmocom/ranap/RANAP_TargetID.h:34-48 *)
  ("RANAP_TargetID", [CM "present" false (CName "RANAP_TargetID_PR"); CM "choice" false (CUnion "RANAP_TargetID_u"); CM "_asn_ctx" false (CName "asn_struct_ctx_t")]);
  (* include/osmocom/ranap/RANAP_TargetRNC-ID.h:26-34 *)
  ("RANAP_TargetRNC_ID", [CM "lAI" false (CName "RANAP_LAI_t"); CM "rAC" true (CName "RANAP_RAC_t"); CM "rNC_ID" false (CName "RANAP_RNC_ID_t"); CM "iE_Extensions" true (CName "RANAP_IE_Extensions_t"); CM "_asn_ctx" false (CName "asn_struct_ctx_t")]);
  (* include/osmocom/ranap/RANAP_TargetRNC-ToSourceRNC-TransparentContainer.h:25-36 *)
  ("RANAP_TargetRNC_ToSourceRNC_TransparentContainer", [CM "rRC_Container" false (CName "RANAP_RRC_Container_t"); CM "d_RNTI" true (CName "RANAP_D_RNTI_t"); CM "iE_Extensions" true (CName "RANAP_IE_Extensions_t"); CM "_asn_ctx" false (CName "asn_struct_ctx_t")]);
  (* include/osmocom/ranap/RANAP_TemporaryUE-ID.h:33-46 *)
  ("RANAP_TemporaryUE_ID", [CM "present" false (CName "RANAP_TemporaryUE_ID_PR"); CM "choice" false (CUnion "RANAP_TemporaryUE_ID_u"); CM "_asn_ctx" false (CName "asn_struct_ctx_t")]);
  (* include/osmocom/ranap/RANAP_TrCH-ID-List.h:24-29 *)
  ("RANAP_TrCH_ID_List", [CM "list" false (CList (CName "RANAP_TrCH_ID_t")); CM "_asn_ctx" false (CName "asn_struct_ctx_t")]);
  (* include/osmocom/ranap/RANAP_TrCH-ID.h:26-38 *)
  ("RANAP_TrCH_ID", [CM "dCH_ID" true (CName "RANAP_DCH_ID_t"); CM "dSCH_ID" true (CName "RANAP_DSCH_ID_t"); CM "uSCH_ID" true (CName "RANAP_USCH_ID_t"); CM "iE_Extensions" true (CName "RANAP_IE_Extensions_t"); CM "_asn_ctx" false (CName "asn_struct_ctx_t")]);
  (* include/osmocom/ranap/RANAP_TraceInformation.h:26-38 *)
  ("RANAP_TraceInformation", [CM "traceReference" false (CName "RANAP_TraceReference_t"); CM "ue_identity" false (CName "RANAP_UE_ID_t"); CM "tracePropagationParameters" true (CName "RANAP_TracePropagationParameters_t"); CM "iE_Extensions" true (CName "RANAP_IE_Extensions_t"); CM "_asn_ctx" false (CName "asn_struct_ctx_t")]);
  (* include/osmocom/ranap/RANAP_TracePropagationParameters.h:26-38 *)
  ("RANAP_TracePropagationParameters", [CM "traceRecordingSessionReference" false (CName "RANAP_TraceRecordingSessionReference_t"); CM "traceDepth" false (CName "RANAP_TraceDepth_t"); CM "listOfInterfacesToTrace" true (CName "RANAP_ListOfInterfacesToTrace_t"); CM "iE_Extensions" true (CName "RANAP_IE_Extensions_t"); CM "_asn_ctx" false (CName "asn_struct_ctx_t")]);
  (* include/osmocom/ranap/RANAP_TraceRecordingSessionInformation.h:25-36 *)
  ("RANAP_TraceRecordingSessionInformation", [CM "traceReference" false (CName "RANAP_TraceReference_t"); CM "traceRecordingSessionReference" false (CName "RANAP_TraceRecordingSessionReference_t"); CM "iE_Extensions" true (CName "RANAP_IE_Extensions_t"); CM "_asn_ctx" false (CName "asn_struct_ctx_t")]);
  (* include/osmocom/ranap/RANAP_TransportLayerInformation.h:25-36 *)
  ("RANAP_TransportLayerInformation", [CM "transportLayerAddress" false (CName "RANAP_TransportLayerAddress_t"); CM "iuTransportAssociation" false (CName "RANAP_IuTransportAssociation_t"); CM "iE_Extensions" true (CName "RANAP_ProtocolExtensionContainer_t"); CM "_asn_ctx" false (CName "asn_struct_ctx_t")]);
  (* include/osmocom/ranap/RANAP_TunnelInformation.h:25-36 *)
  ("RANAP_TunnelInformation", [CM "transportLayerAddress" false (CName "RANAP_TransportLayerAddress_t"); CM "uDP_Port_Number" true (CName "RANAP_Port_Number_t"); CM "iE_Extensions" true (CName "RANAP_IE_Extensions_t"); CM "_asn_ctx" false (CName "asn_struct_ctx_t")]);
  (* include/osmocom/ranap/RANAP_UE-AggregateMaximumBitRate.h:24-34 *)
  ("RANAP_UE_AggregateMaximumBitRate", [CM "uE_AggregateMaximumBitRateDownlink" true (CName "RANAP_UE_AggregateMaximumBitRateDownlink_t"); CM "uE_AggregateMaximumBitRateUplink" true (CName "RANAP_UE_AggregateMaximumBitRateUplink_t"); CM "_asn_ctx" false (CName "asn_struct_ctx_t")]);
  (* include/osmocom/ranap/RANAP_UE-ID.h:34-48 *)
  ("RANAP_UE_ID", [CM "present" false (CName "RANAP_UE_ID_PR"); CM "choice" false (CUnion "RANAP_UE_ID_u"); CM "_asn_ctx" false (CName "asn_struct_ctx_t")]);
  (* include/osmocom/ranap/RANAP_UESBI-Iu.h:25-36 *)
  ("RANAP_UESBI_Iu", [CM "uESBI_IuA" true (CName "RANAP_UESBI_IuA_t"); CM "uESBI_IuB" true (CName "RANAP_UESBI_IuB_t"); CM "iE_Extensions" true (CName "RANAP_IE_Extensions_t"); CM "_asn_ctx" false (CName "asn_struct_ctx_t")]);
  (* include/osmocom/ranap/RANAP_UESpecificInformationIndication.h:25-39 *)
  ("RANAP_UESpecificInformationIndication__ueSpecificInformationIndication_ies", [CM "list" false (CList (CName "RANAP_IE_t")); CM "_asn_ctx" false (CName "asn_struct_ctx_t")]);
  (* include/osmocom/ranap/RANAP_UESpecificInformationIndication.h:25-39 *)
  ("RANAP_UESpecificInformationIndication", [CM "ueSpecificInformationIndication_ies" false (CStruct "RANAP_UESpecificInformationIndication__ueSpecificInformationIndication_ies"); CM "_asn_ctx" false (CName "asn_struct_ctx_t")]);
  (* include/osmocom/ranap/RANAP_UPInformation.h:27-42 *)
  ("RANAP_UPInformation", [CM "frameSeqNoUL" false (CName "RANAP_FrameSequenceNumber_t"); CM "frameSeqNoDL" false (CName "RANAP_FrameSequenceNumber_t"); CM "pdu14FrameSeqNoUL" false (CName "RANAP_PDUType14FrameSequenceNumber_t"); CM "pdu14FrameSeqNoDL" false (CName "RANAP_PDUType14FrameSequenceNumber_t"); CM "dataPDUType" false (CName "RANAP_DataPDUType_t"); CM "upinitialisationFrame" false (CName "RANAP_UPInitialisationFrame_t"); CM "iE_Extensions" true (CName "RANAP_IE_Extensions_t"); CM "_asn_ctx" false (CName "asn_struct_ctx_t")]);
  (* include/osmocom/ranap/RANAP_UTRAN-CellID.h:25-32 *)
  ("RANAP_UTRAN_CellID", [CM "pLMNidentity" false (CName "RANAP_PLMNidentity_t"); CM "cellID" false (CName "RANAP_TargetCellId_t"); CM "iE_Extensions" true (CName "RANAP_IE_Extensions_t"); CM "_asn_ctx" false (CName "asn_struct_ctx_t")]);
  (* include/osmocom/ranap/RANAP_UeRadioCapabilityMatchRequest.h:25-39 *)
  ("RANAP_UeRadioCapabilityMatchRequest__ueRadioCapabilityMatchRequest_ies", [CM "list" false (CList (CName "RANAP_IE_t")); CM "_asn_ctx" false (CName "asn_struct_ctx_t")]);
  (* include/osmocom/ranap/RANAP_UeRadioCapabilityMatchRequest.h:25-39 *)
  ("RANAP_UeRadioCapabilityMatchRequest", [CM "ueRadioCapabilityMatchRequest_ies" false (CStruct "RANAP_UeRadioCapabilityMatchRequest__ueRadioCapabilityMatchRequest_ies"); CM "_asn_ctx" false (CName "asn_struct_ctx_t")]);
  (* include/osmocom/ranap/RANAP_UeRadioCapabilityMatchResponse.h:25-39 *)
  ("RANAP_UeRadioCapabilityMatchResponse__ueRadioCapabilityMatchResponse_ies", [CM "list" false (CList (CName "RANAP_IE_t")); CM "_asn_ctx" false (CName "asn_struct_ctx_t")]);
  (* include/osmocom/ranap/RANAP_UeRadioCapabilityMatchResponse.h:25-39 *)
  ("RANAP_UeRadioCapabilityMatchResponse", [CM "ueRadioCapabilityMatchResponse_ies" false (CStruct "RANAP_UeRadioCapabilityMatchResponse__ueRadioCapabilityMatchResponse_ies"); CM "_asn_ctx" false (CName "asn_struct_ctx_t")]);
  (* include/osmocom/ranap/RANAP_UnsuccessfulLinking-IEs-Value.h:25-36 *)
  ("RANAP_UnsuccessfulLinking_IEs_Value", [CM "tMGI" false (CName "RANAP_TMGI_t"); CM "cause" false (CName "RANAP_Cause_t"); CM "iE_Extensions" true (CName "RANAP_ProtocolExtensionContainer_t"); CM "_asn_ctx" false (CName "asn_struct_ctx_t")]);
  (* include/osmocom/ranap/RANAP_UnsuccessfulLinking-IEs.h:24-29 *)
  ("RANAP_UnsuccessfulLinking_IEs", [CM "list" false (CList (CName "RANAP_UnsuccessfulLinking_IEs_Value_t")); CM "_asn_ctx" false (CName "asn_struct_ctx_t")]);
  (* include/osmocom/ranap/RANAP_UnsuccessfulOutcome.h:25-32 *)
  ("RANAP_UnsuccessfulOutcome", [CM "procedureCode" false (CName "RANAP_ProcedureCode_t"); CM "criticality" false (CName "RANAP_Criticality_t"); CM "value" false (CName "ANY_t"); CM "_asn_ctx" false (CName "asn_struct_ctx_t")]);
  (* include/osmocom/ranap/RANAP_UplinkInformationExchangeFailure.h:25-39 *)
  ("RANAP_UplinkInformationExchangeFailure__uplinkInformationExchangeFailure_ies", [CM "list" false (CList (CName "RANAP_IE_t")); CM "_asn_ctx" false (CName "asn_struct_ctx_t")]);
  (* include/osmocom/ranap/RANAP_UplinkInformationExchangeFailure.h:25-39 *)
  ("RANAP_UplinkInformationExchangeFailure", [CM "uplinkInformationExchangeFailure_ies" false (CStruct "RANAP_UplinkInformationExchangeFailure__uplinkInformationExchangeFailure_ies"); CM "_asn_ctx" false (CName "asn_struct_ctx_t")]);
  (* include/osmocom/ranap/RANAP_UplinkInformationExchangeRequest.h:25-39 *)
  ("RANAP_UplinkInformationExchangeRequest__uplinkInformationExchangeRequest_ies", [CM "list" false (CList (CName "RANAP_IE_t")); CM "_asn_ctx" false (CName "asn_struct_ctx_t")]);
  (* include/osmocom/ranap/RANAP_UplinkInformationExchangeRequest.h:25-39 *)
  ("RANAP_UplinkInformationExchangeRequest", [CM "uplinkInformationExchangeRequest_ies" false (CStruct "RANAP_UplinkInformationExchangeRequest__uplinkInformationExchangeRequest_ies"); CM "_asn_ctx" false (CName "asn_struct_ctx_t")]);
  (* include/osmocom/ranap/RANAP_UplinkInformationExchangeResponse.h:25-39 *)
  ("RANAP_UplinkInformationExchangeResponse__uplinkInformationExchangeResponse_ies", [CM "list" false (CList (CName "RANAP_IE_t")); CM "_asn_ctx" false (CName "asn_struct_ctx_t")]);
  (* include/osmocom/ranap/RANAP_UplinkInformationExchangeResponse.h:25-39 *)
  ("RANAP_UplinkInformationExchangeResponse", [CM "uplinkInformationExchangeResponse_ies" false (CStruct "RANAP_UplinkInformationExchangeResponse__uplinkInformationExchangeResponse_ies"); CM "_asn_ctx" false (CName "asn_struct_ctx_t")]);
  (* include/osmocom/ranap/RANAP_UserPlaneInformation.h:25-36 *)
  ("RANAP_UserPlaneInformation", [CM "userPlaneMode" false (CName "RANAP_UserPlaneMode_t"); CM "uP_ModeVersions" false (CName "RANAP_UP_ModeVersions_t"); CM "iE_Extensions" true (CName "RANAP_ProtocolExtensionContainer_t"); CM "_asn_ctx" false (CName "asn_struct_ctx_t")]);
  (* include/osmocom/ranap/RANAP_VelocityEstimate.h:37-52 *)
  ("RANAP_VelocityEstimate", [CM "present" false (CName "RANAP_VelocityEstimate_PR"); CM "choice" false (CUnion "RANAP_VelocityEstimate_u"); CM "_asn_ctx" false (CName "asn_struct_ctx_t")]);
  (* include/osmocom/ranap/RANAP_VerticalVelocity.h:24-30 *)
  ("RANAP_VerticalVelocity", [CM "veritcalSpeed" false (CName "long"); CM "veritcalSpeedDirection" false (CName "RANAP_VerticalSpeedDirection_t"); CM "_asn_ctx" false (CName "asn_struct_ctx_t")]) ].

Definition ranap_unions : list (string * list cmember) := [
  (* include/osmocom/ranap/RANAP_AreaIdentity.h:33-46 *)
  ("RANAP_AreaIdentity_u", [CM "sAI" false (CName "RANAP_SAI_t"); CM "geographicalArea" false (CName "RANAP_GeographicalArea_t")]);
  (* include/osmocom/ranap/RANAP_Cause.h:42-60 *)
  ("RANAP_Cause_u", [CM "radioNetwork" false (CName "RANAP_CauseRadioNetwork_t"); CM "transmissionNetwork" false (CName "RANAP_CauseTransmissionNetwork_t"); CM "nAS" false (CName "RANAP_CauseNAS_t"); CM "protocol" false (CName "RANAP_CauseProtocol_t"); CM "misc" false (CName "RANAP_CauseMisc_t"); CM "non_Standard" false (CName "RANAP_CauseNon_Standard_t"); CM "radioNetworkExtension" false (CName "RANAP_CauseRadioNetworkExtension_t")]);
  (* include/osmocom/ranap/RANAP_ENB-ID.h:32-45 *)
  ("RANAP_ENB_ID_u", [CM "macroENB_ID" false (CName "BIT_STRING_t"); CM "homeENB_ID" false (CName "BIT_STRING_t")]);
  (* include/osmocom/ranap/RANAP_EquipmentsToBeTraced.h:37-52 *)
  ("RANAP_EquipmentsToBeTraced_u", [CM "iMEIlist" false (CName "RANAP_IMEIList_t"); CM "iMEISVlist" false (CName "RANAP_IMEISVList_t"); CM "iMEIgroup" false (CName "RANAP_IMEIGroup_t"); CM "iMEISVgroup" false (CName "RANAP_IMEISVGroup_t")]);
  (* include/osmocom/ranap/RANAP_GeographicalArea.h:42-60 *)
  ("RANAP_GeographicalArea_u", [CM "point" false (CName "RANAP_GA_Point_t"); CM "pointWithUnCertainty" false (CName "RANAP_GA_PointWithUnCertainty_t"); CM "polygon" false (CName "RANAP_GA_Polygon_t"); CM "pointWithUncertaintyEllipse" false (CName "RANAP_GA_PointWithUnCertaintyEllipse_t"); CM "pointWithAltitude" false (CName "RANAP_GA_PointWithAltitude_t"); CM "pointWithAltitudeAndUncertaintyEllipsoid" false (CName "RANAP_GA_PointWithAltitudeAndUncertaintyEllipsoid_t"); CM "ellipsoidArc" false (CName "RANAP_GA_EllipsoidArc_t")]);
  (* include/osmocom/ranap/RANAP_InformationRequestType.h:33-46 *)
  ("RANAP_InformationRequestType_u", [CM "mBMSIPMulticastAddressandAPNRequest" false (CName "RANAP_MBMSIPMulticastAddressandAPNRequest_t"); CM "permanentNAS_UE_ID" false (CName "RANAP_PermanentNAS_UE_ID_t")]);
  (* include/osmocom/ranap/RANAP_InformationRequested.h:33-46 *)
  ("RANAP_InformationRequested_u", [CM "requestedMBMSIPMulticastAddressandAPNRequest" false (CName "RANAP_RequestedMBMSIPMulticastAddressandAPNRequest_t"); CM "requestedMulticastServiceList" false (CName "RANAP_RequestedMulticastServiceList_t")]);
  (* include/osmocom/ranap/RANAP_InformationTransferType.h:31-43 *)
  ("RANAP_InformationTransferType_u", [CM "rNCTraceInformation" false (CName "RANAP_RNCTraceInformation_t")]);
  (* include/osmocom/ranap/RANAP_InterSystemInformationTransferType.h:31-43 *)
  ("RANAP_InterSystemInformationTransferType_u", [CM "rIM_Transfer" false (CName "RANAP_RIM_Transfer_t")]);
  (* include/osmocom/ranap/RANAP_IuTransportAssociation.h:33-46 *)
  ("RANAP_IuTransportAssociation_u", [CM "gTP_TEI" false (CName "RANAP_GTP_TEI_t"); CM "bindingID" false (CName "RANAP_BindingID_t")]);
  (* include/osmocom/ranap/RANAP_M1Report.h:33-46 *)
  ("RANAP_M1Report_u", [CM "periodic" false (CName "RANAP_MDT_Report_Parameters_t"); CM "event1F" false (CName "RANAP_Event1F_Parameters_t")]);
  (* include/osmocom/ranap/RANAP_M2Report.h:33-46 *)
  ("RANAP_M2Report_u", [CM "periodic" false (CName "RANAP_MDT_Report_Parameters_t"); CM "event1I" false (CName "RANAP_Event1I_Parameters_t")]);
  (* include/osmocom/ranap/RANAP_M4Report.h:33-46 *)
  ("RANAP_M4Report_u", [CM "all" false (CName "NULL_t"); CM "m4_collection_parameters" false (CName "RANAP_M4_Collection_Parameters_t")]);
  (* include/osmocom/ranap/RANAP_M5Report.h:33-46 *)
  ("RANAP_M5Report_u", [CM "when_available" false (CName "NULL_t"); CM "m5_period" false (CName "RANAP_M5_Period_t")]);
  (* include/osmocom/ranap/RANAP_MDTAreaScope.h:37-52 *)
  ("RANAP_MDTAreaScope_u", [CM "cellbased" false (CName "RANAP_CellBased_t"); CM "labased" false (CName "RANAP_LABased_t"); CM "rabased" false (CName "RANAP_RABased_t"); CM "plmn_area_based" false (CName "NULL_t")]);
  (* include/osmocom/ranap/RANAP_MDTMode.h:33-46 *)
  ("RANAP_MDTMode_u", [CM "immediateMDT" false (CName "RANAP_ImmediateMDT_t"); CM "loggedMDT" false (CName "RANAP_LoggedMDT_t")]);
  (* include/osmocom/ranap/RANAP_PagingAreaID.h:33-46 *)
  ("RANAP_PagingAreaID_u", [CM "lAI" false (CName "RANAP_LAI_t"); CM "rAI" false (CName "RANAP_RAI_t")]);
  (* include/osmocom/ranap/RANAP_PermanentNAS-UE-ID.h:31-43 *)
  ("RANAP_PermanentNAS_UE_ID_u", [CM "iMSI" false (CName "RANAP_IMSI_t")]);
  (* include/osmocom/ranap/RANAP_PrivateIE-ID.h:31-40 *)
  ("RANAP_PrivateIE_ID_u", [CM "local" false (CName "long"); CM "global" false (CName "OBJECT_IDENTIFIER_t")]);
  (* include/osmocom/ranap/RANAP_ProvidedData.h:31-43 *)
  ("RANAP_ProvidedData_u", [CM "shared_network_information" false (CName "RANAP_Shared_Network_Information_t")]);
  (* include/osmocom/ranap/RANAP_RAListofIdleModeUEs.h:40-53 *)
  ("RANAP_RAListofIdleModeUEs_u", [CM "notEmptyRAListofIdleModeUEs" false (CName "RANAP_NotEmptyRAListofIdleModeUEs_t"); CM "emptyFullRAListofIdleModeUEs" false (CName "long")]);
  (* include/osmocom/ranap/RANAP_RANAP-PDU.h:37-52 *)
  ("RANAP_RANAP_PDU_u", [CM "initiatingMessage" false (CName "RANAP_InitiatingMessage_t"); CM "successfulOutcome" false (CName "RANAP_SuccessfulOutcome_t"); CM "unsuccessfulOutcome" false (CName "RANAP_UnsuccessfulOutcome_t"); CM "outcome" false (CName "RANAP_Outcome_t")]);
  (* include/osmocom/ranap/RANAP_RIMRoutingAddress.h:34-48 *)
  ("RANAP_RIMRoutingAddress_u", [CM "targetRNC_ID" false (CName "RANAP_TargetRNC_ID_t"); CM "gERAN_Cell_ID" false (CName "RANAP_GERAN_Cell_ID_t"); CM "targeteNB_ID" false (CName "RANAP_TargetENB_ID_t")]);
  (* include/osmocom/ranap/RANAP_SourceCellID.h:33-46 *)
  ("RANAP_SourceCellID_u", [CM "sourceUTRANCellID" false (CName "RANAP_SourceUTRANCellID_t"); CM "sourceGERANCellID" false (CName "RANAP_CGI_t")]);
  (* include/osmocom/ranap/RANAP_SourceID.h:33-46 *)
  ("RANAP_SourceID_u", [CM "sourceRNC_ID" false (CName "RANAP_SourceRNC_ID_t"); CM "sAI" false (CName "RANAP_SAI_t")]);
  (* include/osmocom/ranap/RANAP_TargetID.h:34-48 *)
  ("RANAP_TargetID_u", [CM "targetRNC_ID" false (CName "RANAP_TargetRNC_ID_t"); CM "cGI" false (CName "RANAP_CGI_t"); CM "targeteNB_ID" false (CName "RANAP_TargetENB_ID_t")]);
  (* include/osmocom/ranap/RANAP_TemporaryUE-ID.h:33-46 *)
  ("RANAP_TemporaryUE_ID_u", [CM "tMSI" false (CName "RANAP_TMSI_t"); CM "p_TMSI" false (CName "RANAP_P_TMSI_t")]);
  (* include/osmocom/ranap/RANAP_UE-ID.h:34-48 *)
  ("RANAP_UE_ID_u", [CM "imsi" false (CName "RANAP_IMSI_t"); CM "imei" false (CName "RANAP_IMEI_t"); CM "imeisv" false (CName "RANAP_IMEISV_t")]);
  (* include/osmocom/ranap/RANAP_VelocityEstimate.h:37-52 *)
  ("RANAP_VelocityEstimate_u", [CM "horizontalVelocity" false (CName "RANAP_HorizontalVelocity_t"); CM "horizontalWithVerticalVelocity" false (CName "RANAP_HorizontalWithVerticalVelocity_t"); CM "horizontalVelocityWithUncertainty" false (CName "RANAP_HorizontalVelocityWithUncertainty_t"); CM "horizontalWithVeritcalVelocityAndUncertainty" false (CName "RANAP_HorizontalWithVerticalVelocityAndUncertainty_t")]) ].

Definition rua_enums : list (string * list (string * option Z)) := [
  (* include/osmocom/rua/RUA_CN-DomainIndicator.h:22-25 *)
  ("RUA_CN_DomainIndicator", [("RUA_CN_DomainIndicator_cs_domain", Some 0); ("RUA_CN_DomainIndicator_ps_domain", Some 1)]);
  (* include/osmocom/rua/RUA_CSGMembershipStatus.h:22-28 *)
  ("RUA_CSGMembershipStatus", [("RUA_CSGMembershipStatus_member", Some 0); ("RUA_CSGMembershipStatus_non_member", Some 1)]);
  (* include/osmocom/rua/RUA_Cause.h:26-34 *)
  ("RUA_Cause_PR", [("RUA_Cause_PR_NOTHING", None); ("RUA_Cause_PR_radioNetwork", None); ("RUA_Cause_PR_transport", None); ("RUA_Cause_PR_protocol", None); ("RUA_Cause_PR_misc", None)]);
  (* include/osmocom/rua/RUA_CauseMisc.h:22-30 *)
  ("RUA_CauseMisc", [("RUA_CauseMisc_processing_overload", Some 0); ("RUA_CauseMisc_hardware_failure", Some 1); ("RUA_CauseMisc_o_and_m_intervention", Some 2); ("RUA_CauseMisc_unspecified", Some 3)]);
  (* include/osmocom/rua/RUA_CauseProtocol.h:22-33 *)
  ("RUA_CauseProtocol", [("RUA_CauseProtocol_transfer_syntax_error", Some 0); ("RUA_CauseProtocol_abstract_syntax_error_reject", Some 1); ("RUA_CauseProtocol_abstract_syntax_error_ignore_and_notify", Some 2); ("RUA_CauseProtocol_message_not_compatible_with_receiver_state", Some 3); ("RUA_CauseProtocol_semantic_error", Some 4); ("RUA_CauseProtocol_unspecified", Some 5); ("RUA_CauseProtocol_abstract_syntax_error_falsely_constructed_message", Some 6)]);
  (* include/osmocom/rua/RUA_CauseRadioNetwork.h:22-30 *)
  ("RUA_CauseRadioNetwork", [("RUA_CauseRadioNetwork_normal", Some 0); ("RUA_CauseRadioNetwork_connect_failed", Some 1); ("RUA_CauseRadioNetwork_network_release", Some 2); ("RUA_CauseRadioNetwork_unspecified", Some 3)]);
  (* include/osmocom/rua/RUA_CauseTransport.h:22-28 *)
  ("RUA_CauseTransport", [("RUA_CauseTransport_transport_resource_unavailable", Some 0); ("RUA_CauseTransport_unspecified", Some 1)]);
  (* include/osmocom/rua/RUA_Criticality.h:22-26 *)
  ("RUA_Criticality", [("RUA_Criticality_reject", Some 0); ("RUA_Criticality_ignore", Some 1); ("RUA_Criticality_notify", Some 2)]);
  (* include/osmocom/rua/RUA_Establishment-Cause.h:22-28 *)
  ("RUA_Establishment_Cause", [("RUA_Establishment_Cause_emergency_call", Some 0); ("RUA_Establishment_Cause_normal_call", Some 1)]);
  (* include/osmocom/rua/RUA_Gsm-map-IDNNS.h:25-35 *)
  ("RUA_Gsm_map_IDNNS__routingbasis_PR", [("RUA_Gsm_map_IDNNS__routingbasis_PR_NOTHING", None); ("RUA_Gsm_map_IDNNS__routingbasis_PR_localPTMSI", None); ("RUA_Gsm_map_IDNNS__routingbasis_PR_tMSIofsamePLMN", None); ("RUA_Gsm_map_IDNNS__routingbasis_PR_tMSIofdifferentPLMN", None); ("RUA_Gsm_map_IDNNS__routingbasis_PR_iMSIresponsetopaging", None); ("RUA_Gsm_map_IDNNS__routingbasis_PR_iMSIcauseUEinitiatedEvent", None); ("RUA_Gsm_map_IDNNS__routingbasis_PR_iMEI", None); ("RUA_Gsm_map_IDNNS__routingbasis_PR_spare2", None); ("RUA_Gsm_map_IDNNS__routingbasis_PR_spare1", None)]);
  (* include/osmocom/rua/RUA_IntraDomainNasNodeSelector.h:26-30 *)
  ("RUA_IntraDomainNasNodeSelector__version_PR", [("RUA_IntraDomainNasNodeSelector__version_PR_NOTHING", None); ("RUA_IntraDomainNasNodeSelector__version_PR_release99", None); ("RUA_IntraDomainNasNodeSelector__version_PR_later", None)]);
  (* include/osmocom/rua/RUA_IntraDomainNasNodeSelector.h:31-35 *)
  ("RUA_IntraDomainNasNodeSelector__version__release99__cn_Type_PR", [("RUA_IntraDomainNasNodeSelector__version__release99__cn_Type_PR_NOTHING", None); ("RUA_IntraDomainNasNodeSelector__version__release99__cn_Type_PR_gsm_Map_IDNNS", None); ("RUA_IntraDomainNasNodeSelector__version__release99__cn_Type_PR_ansi_41_IDNNS", None)]);
  (* include/osmocom/rua/RUA_Presence.h:22-26 *)
  ("RUA_Presence", [("RUA_Presence_optional", Some 0); ("RUA_Presence_conditional", Some 1); ("RUA_Presence_mandatory", Some 2)]);
  (* include/osmocom/rua/RUA_PrivateIE-ID.h:24-28 *)
  ("RUA_PrivateIE_ID_PR", [("RUA_PrivateIE_ID_PR_NOTHING", None); ("RUA_PrivateIE_ID_PR_local", None); ("RUA_PrivateIE_ID_PR_global", None)]);
  (* include/osmocom/rua/RUA_ProcedureCode.h:22-29 *)
  ("RUA_ProcedureCode", [("RUA_ProcedureCode_id_Connect", Some 1); ("RUA_ProcedureCode_id_DirectTransfer", Some 2); ("RUA_ProcedureCode_id_Disconnect", Some 3); ("RUA_ProcedureCode_id_ConnectionlessTransfer", Some 4); ("RUA_ProcedureCode_id_ErrorIndication", Some 5); ("RUA_ProcedureCode_id_privateMessage", Some 6)]);
  (* include/osmocom/rua/RUA_ProtocolIE-ID.h:22-31 *)
  ("RUA_ProtocolIE_ID", [("RUA_ProtocolIE_ID_id_Cause", Some 1); ("RUA_ProtocolIE_ID_id_CriticalityDiagnostics", Some 2); ("RUA_ProtocolIE_ID_id_Context_ID", Some 3); ("RUA_ProtocolIE_ID_id_RANAP_Message", Some 4); ("RUA_ProtocolIE_ID_id_IntraDomainNasNodeSelector", Some 5); ("RUA_ProtocolIE_ID_id_Establishment_Cause", Some 6); ("RUA_ProtocolIE_ID_id_CN_DomainIndicator", Some 7); ("RUA_ProtocolIE_ID_id_CSGMembershipStatus", Some 9)]);
  (* include/osmocom/rua/RUA_RUA-PDU.h:25-32 *)
  ("RUA_RUA_PDU_PR", [("RUA_RUA_PDU_PR_NOTHING", None); ("RUA_RUA_PDU_PR_initiatingMessage", None); ("RUA_RUA_PDU_PR_successfulOutcome", None); ("RUA_RUA_PDU_PR_unsuccessfulOutcome", None)]);
  (* include/osmocom/rua/RUA_TriggeringMessage.h:22-26 *)
  ("RUA_TriggeringMessage", [("RUA_TriggeringMessage_initiating_message", Some 0); ("RUA_TriggeringMessage_successful_outcome", Some 1); ("RUA_TriggeringMessage_unsuccessful_outcome", Some 2)]);
  (* include/osmocom/rua/RUA_TypeOfError.h:22-28 *)
  ("RUA_TypeOfError", [("RUA_TypeOfError_not_understood", Some 0); ("RUA_TypeOfError_missing", Some 1)]) ].

Definition rua_typedefs : list (string * ctype) := [
  (* include/osmocom/rua/RUA_Ansi-41-IDNNS.h:22-22 *)
  ("RUA_Ansi_41_IDNNS_t", CName "BIT_STRING_t");
  (* include/osmocom/rua/RUA_CN-DomainIndicator.h:28-28 *)
  ("RUA_CN_DomainIndicator_t", CName "long");
  (* include/osmocom/rua/RUA_CSGMembershipStatus.h:31-31 *)
  ("RUA_CSGMembershipStatus_t", CName "long");
  (* include/osmocom/rua/RUA_Cause.h:37-52 *)
  ("RUA_Cause_t", CStruct "RUA_Cause");
  (* include/osmocom/rua/RUA_CauseMisc.h:33-33 *)
  ("RUA_CauseMisc_t", CName "long");
  (* include/osmocom/rua/RUA_CauseProtocol.h:36-36 *)
  ("RUA_CauseProtocol_t", CName "long");
  (* include/osmocom/rua/RUA_CauseRadioNetwork.h:33-33 *)
  ("RUA_CauseRadioNetwork_t", CName "long");
  (* include/osmocom/rua/RUA_CauseTransport.h:31-31 *)
  ("RUA_CauseTransport_t", CName "long");
  (* include/osmocom/rua/RUA_Connect.h:25-39 *)
  ("RUA_Connect_t", CStruct "RUA_Connect");
  (* include/osmocom/rua/RUA_ConnectionlessTransfer.h:25-39 *)
  ("RUA_ConnectionlessTransfer_t", CStruct "RUA_ConnectionlessTransfer");
  (* include/osmocom/rua/RUA_Context-ID.h:22-22 *)
  ("RUA_Context_ID_t", CName "BIT_STRING_t");
  (* include/osmocom/rua/RUA_Criticality.h:29-29 *)
  ("RUA_Criticality_t", CName "long");
  (* include/osmocom/rua/RUA_CriticalityDiagnostics-IE-List-Value.h:26-38 *)
  ("RUA_CriticalityDiagnostics_IE_List_Value_t", CStruct "RUA_CriticalityDiagnostics_IE_List_Value");
  (* include/osmocom/rua/RUA_CriticalityDiagnostics-IE-List.h:24-29 *)
  ("RUA_CriticalityDiagnostics_IE_List_t", CStruct "RUA_CriticalityDiagnostics_IE_List");
  (* include/osmocom/rua/RUA_CriticalityDiagnostics.h:27-40 *)
  ("RUA_CriticalityDiagnostics_t", CStruct "RUA_CriticalityDiagnostics");
  (* include/osmocom/rua/RUA_DirectTransfer.h:25-39 *)
  ("RUA_DirectTransfer_t", CStruct "RUA_DirectTransfer");
  (* include/osmocom/rua/RUA_Disconnect.h:25-39 *)
  ("RUA_Disconnect_t", CStruct "RUA_Disconnect");
  (* include/osmocom/rua/RUA_ErrorIndication.h:25-39 *)
  ("RUA_ErrorIndication_t", CStruct "RUA_ErrorIndication");
  (* include/osmocom/rua/RUA_Establishment-Cause.h:31-31 *)
  ("RUA_Establishment_Cause_t", CName "long");
  (* include/osmocom/rua/RUA_Gsm-map-IDNNS.h:38-99 *)
  ("RUA_Gsm_map_IDNNS_t", CStruct "RUA_Gsm_map_IDNNS");
  (* include/osmocom/rua/RUA_IE-Extensions.h:24-29 *)
  ("RUA_IE_Extensions_t", CStruct "RUA_IE_Extensions");
  (* include/osmocom/rua/RUA_IE.h:25-32 *)
  ("RUA_IE_t", CStruct "RUA_IE");
  (* include/osmocom/rua/RUA_InitiatingMessage.h:25-32 *)
  ("RUA_InitiatingMessage_t", CStruct "RUA_InitiatingMessage");
  (* include/osmocom/rua/RUA_IntraDomainNasNodeSelector.h:38-71 *)
  ("RUA_IntraDomainNasNodeSelector_t", CStruct "RUA_IntraDomainNasNodeSelector");
  (* include/osmocom/rua/RUA_Presence.h:29-29 *)
  ("RUA_Presence_t", CName "long");
  (* include/osmocom/rua/RUA_PrivateIE-ID.h:31-40 *)
  ("RUA_PrivateIE_ID_t", CStruct "RUA_PrivateIE_ID");
  (* include/osmocom/rua/RUA_PrivateMessage.h:25-39 *)
  ("RUA_PrivateMessage_t", CStruct "RUA_PrivateMessage");
  (* include/osmocom/rua/RUA_ProcedureCode.h:32-32 *)
  ("RUA_ProcedureCode_t", CName "long");
  (* include/osmocom/rua/RUA_ProtocolIE-ID.h:34-34 *)
  ("RUA_ProtocolIE_ID_t", CName "long");
  (* include/osmocom/rua/RUA_RANAP-Message.h:22-22 *)
  ("RUA_RANAP_Message_t", CName "OCTET_STRING_t");
  (* include/osmocom/rua/RUA_RUA-PDU.h:35-49 *)
  ("RUA_RUA_PDU_t", CStruct "RUA_RUA_PDU");
  (* include/osmocom/rua/RUA_RoutingParameter.h:22-22 *)
  ("RUA_RoutingParameter_t", CName "BIT_STRING_t");
  (* include/osmocom/rua/RUA_SuccessfulOutcome.h:25-32 *)
  ("RUA_SuccessfulOutcome_t", CStruct "RUA_SuccessfulOutcome");
  (* include/osmocom/rua/RUA_TriggeringMessage.h:29-29 *)
  ("RUA_TriggeringMessage_t", CName "long");
  (* include/osmocom/rua/RUA_TypeOfError.h:31-31 *)
  ("RUA_TypeOfError_t", CName "long");
  (* include/osmocom/rua/RUA_UnsuccessfulOutcome.h:25-32 *)
  ("RUA_UnsuccessfulOutcome_t", CStruct "RUA_UnsuccessfulOutcome");
  (* include/osmocom/rua/RUA_CN-DomainIndicator.h:22-25 *)
  ("e_RUA_CN_DomainIndicator", CEnum "RUA_CN_DomainIndicator");
  (* include/osmocom/rua/RUA_CSGMembershipStatus.h:22-28 *)
  ("e_RUA_CSGMembershipStatus", CEnum "RUA_CSGMembershipStatus");
  (* include/osmocom/rua/RUA_Cause.h:26-34 *)
  ("RUA_Cause_PR", CEnum "RUA_Cause_PR");
  (* include/osmocom/rua/RUA_CauseMisc.h:22-30 *)
  ("e_RUA_CauseMisc", CEnum "RUA_CauseMisc");
  (* include/osmocom/rua/RUA_CauseProtocol.h:22-33 *)
  ("e_RUA_CauseProtocol", CEnum "RUA_CauseProtocol");
  (* include/osmocom/rua/RUA_CauseRadioNetwork.h:22-30 *)
  ("e_RUA_CauseRadioNetwork", CEnum "RUA_CauseRadioNetwork");
  (* include/osmocom/rua/RUA_CauseTransport.h:22-28 *)
  ("e_RUA_CauseTransport", CEnum "RUA_CauseTransport");
  (* include/osmocom/rua/RUA_Criticality.h:22-26 *)
  ("e_RUA_Criticality", CEnum "RUA_Criticality");
  (* include/osmocom/rua/RUA_Establishment-Cause.h:22-28 *)
  ("e_RUA_Establishment_Cause", CEnum "RUA_Establishment_Cause");
  (* include/osmocom/rua/RUA_Gsm-map-IDNNS.h:25-35 *)
  ("RUA_Gsm_map_IDNNS__routingbasis_PR", CEnum "RUA_Gsm_map_IDNNS__routingbasis_PR");
  (* include/osmocom/rua/RUA_IntraDomainNasNodeSelector.h:26-30 *)
  ("RUA_IntraDomainNasNodeSelector__version_PR", CEnum "RUA_IntraDomainNasNodeSelector__version_PR");
  (* include/osmocom/rua/RUA_IntraDomainNasNodeSelector.h:31-35 *)
  ("RUA_IntraDomainNasNodeSelector__version__release99__cn_Type_PR", CEnum "RUA_IntraDomainNasNodeSelector__version__release99__cn_Type_PR");
  (* include/osmocom/rua/RUA_Presence.h:22-26 *)
  ("e_RUA_Presence", CEnum "RUA_Presence");
  (* include/osmocom/rua/RUA_PrivateIE-ID.h:24-28 *)
  ("RUA_PrivateIE_ID_PR", CEnum "RUA_PrivateIE_ID_PR");
  (* include/osmocom/rua/RUA_ProcedureCode.h:22-29 *)
  ("e_RUA_ProcedureCode", CEnum "RUA_ProcedureCode");
  (* include/osmocom/rua/RUA_ProtocolIE-ID.h:22-31 *)
  ("e_RUA_ProtocolIE_ID", CEnum "RUA_ProtocolIE_ID");
  (* include/osmocom/rua/RUA_RUA-PDU.h:25-32 *)
  ("RUA_RUA_PDU_PR", CEnum "RUA_RUA_PDU_PR");
  (* include/osmocom/rua/RUA_TriggeringMessage.h:22-26 *)
  ("e_RUA_TriggeringMessage", CEnum "RUA_TriggeringMessage");
  (* include/osmocom/rua/RUA_TypeOfError.h:22-28 *)
  ("e_RUA_TypeOfError", CEnum "RUA_TypeOfError") ].

Definition rua_structs : list (string * list cmember) := [
  (* include/osmocom/rua/RUA_Cause.h:37-52 *)
  ("RUA_Cause", [CM "present" false (CName "RUA_Cause_PR"); CM "choice" false (CUnion "RUA_Cause_u"); CM "_asn_ctx" false (CName "asn_struct_ctx_t")]);
  (* include/osmocom/rua/RUA_Connect.h:25-39 *)
  ("RUA_Connect__connect_ies", [CM "list" false (CList (CName "RUA_IE_t")); CM "_asn_ctx" false (CName "asn_struct_ctx_t")]);
  (* include/osmocom/rua/RUA_Connect.h:25-39 *)
  ("RUA_Connect", [CM "connect_ies" false (CStruct "RUA_Connect__connect_ies"); CM "_asn_ctx" false (CName "asn_struct_ctx_t")]);
  (* include/osmocom/rua/RUA_ConnectionlessTransfer.h:25-39 *)
  ("RUA_ConnectionlessTransfer__connectionlessTransfer_ies", [CM "list" false (CList (CName "RUA_IE_t")); CM "_asn_ctx" false (CName "asn_struct_ctx_t")]);
  (* include/osmocom/rua/RUA_ConnectionlessTransfer.h:25-39 *)
  ("RUA_ConnectionlessTransfer", [CM "connectionlessTransfer_ies" false (CStruct "RUA_ConnectionlessTransfer__connectionlessTransfer_ies"); CM "_asn_ctx" false (CName "asn_struct_ctx_t")]);
  (* include/osmocom/rua/RUA_CriticalityDiagnostics-IE-List-Value.h:26-38 *)
  ("RUA_CriticalityDiagnostics_IE_List_Value", [CM "iECriticality" false (CName "RUA_Criticality_t"); CM "iE_ID" false (CName "RUA_ProtocolIE_ID_t"); CM "typeOfError" false (CName "RUA_TypeOfError_t"); CM "iE_Extensions" true (CName "RUA_IE_Extensions_t"); CM "_asn_ctx" false (CName "asn_struct_ctx_t")]);
  (* include/osmocom/rua/RUA_CriticalityDiagnostics-IE-List.h:24-29 *)
  ("RUA_CriticalityDiagnostics_IE_List", [CM "list" false (CList (CName "RUA_CriticalityDiagnostics_IE_List_Value_t")); CM "_asn_ctx" false (CName "asn_struct_ctx_t")]);
  (* include/osmocom/rua/RUA_CriticalityDiagnostics.h:27-40 *)
  ("RUA_CriticalityDiagnostics", [CM "procedureCode" true (CName "RUA_ProcedureCode_t"); CM "triggeringMessage" true (CName "RUA_TriggeringMessage_t"); CM "procedureCriticality" true (CName "RUA_Criticality_t"); CM "iEsCriticalityDiagnostics" true (CName "RUA_CriticalityDiagnostics_IE_List_t"); CM "iE_Extensions" true (CName "RUA_IE_Extensions_t"); CM "_asn_ctx" false (CName "asn_struct_ctx_t")]);
  (* include/osmocom/rua/RUA_DirectTransfer.h:25-39 *)
  ("RUA_DirectTransfer__directTransfer_ies", [CM "list" false (CList (CName "RUA_IE_t")); CM "_asn_ctx" false (CName "asn_struct_ctx_t")]);
  (* include/osmocom/rua/RUA_DirectTransfer.h:25-39 *)
  ("RUA_DirectTransfer", [CM "directTransfer_ies" false (CStruct "RUA_DirectTransfer__directTransfer_ies"); CM "_asn_ctx" false (CName "asn_struct_ctx_t")]);
  (* include/osmocom/rua/RUA_Disconnect.h:25-39 *)
  ("RUA_Disconnect__disconnect_ies", [CM "list" false (CList (CName "RUA_IE_t")); CM "_asn_ctx" false (CName "asn_struct_ctx_t")]);
  (* include/osmocom/rua/RUA_Disconnect.h:25-39 *)
  ("RUA_Disconnect", [CM "disconnect_ies" false (CStruct "RUA_Disconnect__disconnect_ies"); CM "_asn_ctx" false (CName "asn_struct_ctx_t")]);
  (* include/osmocom/rua/RUA_ErrorIndication.h:25-39 *)
  ("RUA_ErrorIndication__errorIndication_ies", [CM "list" false (CList (CName "RUA_IE_t")); CM "_asn_ctx" false (CName "asn_struct_ctx_t")]);
  (* include/osmocom/rua/RUA_ErrorIndication.h:25-39 *)
  ("RUA_ErrorIndication", [CM "errorIndication_ies" false (CStruct "RUA_ErrorIndication__errorIndication_ies"); CM "_asn_ctx" false (CName "asn_struct_ctx_t")]);
  (* include/osmocom/rua/RUA_Gsm-map-IDNNS.h:38-99 *)
  ("RUA_Gsm_map_IDNNS__routingbasis__localPTMSI", [CM "routingparameter" false (CName "RUA_RoutingParameter_t"); CM "_asn_ctx" false (CName "asn_struct_ctx_t")]);
  (* include/osmocom/rua/RUA_Gsm-map-IDNNS.h:38-99 *)
  ("RUA_Gsm_map_IDNNS__routingbasis__tMSIofsamePLMN", [CM "routingparameter" false (CName "RUA_RoutingParameter_t"); CM "_asn_ctx" false (CName "asn_struct_ctx_t")]);
  (* include/osmocom/rua/RUA_Gsm-map-IDNNS.h:38-99 *)
  ("RUA_Gsm_map_IDNNS__routingbasis__tMSIofdifferentPLMN", [CM "routingparameter" false (CName "RUA_RoutingParameter_t"); CM "_asn_ctx" false (CName "asn_struct_ctx_t")]);
  (* include/osmocom/rua/RUA_Gsm-map-IDNNS.h:38-99 *)
  ("RUA_Gsm_map_IDNNS__routingbasis__iMSIresponsetopaging", [CM "routingparameter" false (CName "RUA_RoutingParameter_t"); CM "_asn_ctx" false (CName "asn_struct_ctx_t")]);
  (* include/osmocom/rua/RUA_Gsm-map-IDNNS.h:38-99 *)
  ("RUA_Gsm_map_IDNNS__routingbasis__iMSIcauseUEinitiatedEvent", [CM "routingparameter" false (CName "RUA_RoutingParameter_t"); CM "_asn_ctx" false (CName "asn_struct_ctx_t")]);
  (* include/osmocom/rua/RUA_Gsm-map-IDNNS.h:38-99 *)
  ("RUA_Gsm_map_IDNNS__routingbasis__iMEI", [CM "routingparameter" false (CName "RUA_RoutingParameter_t"); CM "_asn_ctx" false (CName "asn_struct_ctx_t")]);
  (* include/osmocom/rua/RUA_Gsm-map-IDNNS.h:38-99 *)
  ("RUA_Gsm_map_IDNNS__routingbasis__spare2", [CM "routingparameter" false (CName "RUA_RoutingParameter_t"); CM "_asn_ctx" false (CName "asn_struct_ctx_t")]);
  (* include/osmocom/rua/RUA_Gsm-map-IDNNS.h:38-99 *)
  ("RUA_Gsm_map_IDNNS__routingbasis__spare1", [CM "routingparameter" false (CName "RUA_RoutingParameter_t"); CM "_asn_ctx" false (CName "asn_struct_ctx_t")]);
  (* include/osmocom/rua/RUA_Gsm-map-IDNNS.h:38-99 *)
  ("RUA_Gsm_map_IDNNS__routingbasis", [CM "present" false (CName "RUA_Gsm_map_IDNNS__routingbasis_PR"); CM "choice" false (CUnion "RUA_Gsm_map_IDNNS__routingbasis_u"); CM "_asn_ctx" false (CName "asn_struct_ctx_t")]);
  (* include/osmocom/rua/RUA_Gsm-map-IDNNS.h:38-99 *)
  ("RUA_Gsm_map_IDNNS", [CM "routingbasis" false (CStruct "RUA_Gsm_map_IDNNS__routingbasis"); CM "dummy" false (CName "BOOLEAN_t"); CM "_asn_ctx" false (CName "asn_struct_ctx_t")]);
  (* include/osmocom/rua/RUA_IE-Extensions.h:24-29 *)
  ("RUA_IE_Extensions", [CM "list" false (CList (CName "RUA_IE_t")); CM "_asn_ctx" false (CName "asn_struct_ctx_t")]);
  (* include/osmocom/rua/RUA_IE.h:25-32 *)
  ("RUA_IE", [CM "id" false (CName "RUA_ProtocolIE_ID_t"); CM "criticality" false (CName "RUA_Criticality_t"); CM "value" false (CName "ANY_t"); CM "_asn_ctx" false (CName "asn_struct_ctx_t")]);
  (* include/osmocom/rua/RUA_InitiatingMessage.h:25-32 *)
  ("RUA_InitiatingMessage", [CM "procedureCode" false (CName "RUA_ProcedureCode_t"); CM "criticality" false (CName "RUA_Criticality_t"); CM "value" false (CName "ANY_t"); CM "_asn_ctx" false (CName "asn_struct_ctx_t")]);
  (* include/osmocom/rua/RUA_IntraDomainNasNodeSelector.h:38-71 *)
  ("RUA_IntraDomainNasNodeSelector__version__release99__cn_Type", [CM "present" false (CName "RUA_IntraDomainNasNodeSelector__version__release99__cn_Type_PR"); CM "choice" false (CUnion "RUA_IntraDomainNasNodeSelector__version__release99__cn_Type_u"); CM "_asn_ctx" false (CName "asn_struct_ctx_t")]);
  (* include/osmocom/rua/RUA_IntraDomainNasNodeSelector.h:38-71 *)
  ("RUA_IntraDomainNasNodeSelector__version__release99", [CM "cn_Type" false (CStruct "RUA_IntraDomainNasNodeSelector__version__release99__cn_Type"); CM "_asn_ctx" false (CName "asn_struct_ctx_t")]);
  (* include/osmocom/rua/RUA_IntraDomainNasNodeSelector.h:38-71 *)
  ("RUA_IntraDomainNasNodeSelector__version__later", [CM "futurecoding" false (CName "BIT_STRING_t"); CM "_asn_ctx" false (CName "asn_struct_ctx_t")]);
  (* include/osmocom/rua/RUA_IntraDomainNasNodeSelector.h:38-71 *)
  ("RUA_IntraDomainNasNodeSelector__version", [CM "present" false (CName "RUA_IntraDomainNasNodeSelector__version_PR"); CM "choice" false (CUnion "RUA_IntraDomainNasNodeSelector__version_u"); CM "_asn_ctx" false (CName "asn_struct_ctx_t")]);
  (* include/osmocom/rua/RUA_IntraDomainNasNodeSelector.h:38-71 *)
  ("RUA_IntraDomainNasNodeSelector", [CM "version" false (CStruct "RUA_IntraDomainNasNodeSelector__version"); CM "_asn_ctx" false (CName "asn_struct_ctx_t")]);
  (* include/osmocom/rua/RUA_PrivateIE-ID.h:31-40 *)
  ("RUA_PrivateIE_ID", [CM "present" false (CName "RUA_PrivateIE_ID_PR"); CM "choice" false (CUnion "RUA_PrivateIE_ID_u"); CM "_asn_ctx" false (CName "asn_struct_ctx_t")]);
  (* include/osmocom/rua/RUA_PrivateMessage.h:25-39 *)
  ("RUA_PrivateMessage__privateMessage_ies", [CM "list" false (CList (CName "RUA_IE_t")); CM "_asn_ctx" false (CName "asn_struct_ctx_t")]);
  (* include/osmocom/rua/RUA_PrivateMessage.h:25-39 *)
  ("RUA_PrivateMessage", [CM "privateMessage_ies" false (CStruct "RUA_PrivateMessage__privateMessage_ies"); CM "_asn_ctx" false (CName "asn_struct_ctx_t")]);
  (* include/osmocom/rua/RUA_RUA-PDU.h:35-49 *)
  ("RUA_RUA_PDU", [CM "present" false (CName "RUA_RUA_PDU_PR"); CM "choice" false (CUnion "RUA_RUA_PDU_u"); CM "_asn_ctx" false (CName "asn_struct_ctx_t")]);
  (* include/osmocom/rua/RUA_SuccessfulOutcome.h:25-32 *)
  ("RUA_SuccessfulOutcome", [CM "procedureCode" false (CName "RUA_ProcedureCode_t"); CM "criticality" false (CName "RUA_Criticality_t"); CM "value" false (CName "ANY_t"); CM "_asn_ctx" false (CName "asn_struct_ctx_t")]);
  (* include/osmocom/rua/RUA_UnsuccessfulOutcome.h:25-32 *)
  ("RUA_UnsuccessfulOutcome", [CM "procedureCode" false (CName "RUA_ProcedureCode_t"); CM "criticality" false (CName "RUA_Criticality_t"); CM "value" false (CName "ANY_t"); CM "_asn_ctx" false (CName "asn_struct_ctx_t")]) ].

Definition rua_unions : list (string * list cmember) := [
  (* include/osmocom/rua/RUA_Cause.h:37-52 *)
  ("RUA_Cause_u", [CM "radioNetwork" false (CName "RUA_CauseRadioNetwork_t"); CM "transport" false (CName "RUA_CauseTransport_t"); CM "protocol" false (CName "RUA_CauseProtocol_t"); CM "misc" false (CName "RUA_CauseMisc_t")]);
  (* include/osmocom/rua/RUA_Gsm-map-IDNNS.h:38-99 *)
  ("RUA_Gsm_map_IDNNS__routingbasis_u", [CM "localPTMSI" false (CStruct "RUA_Gsm_map_IDNNS__routingbasis__localPTMSI"); CM "tMSIofsamePLMN" false (CStruct "RUA_Gsm_map_IDNNS__routingbasis__tMSIofsamePLMN"); CM "tMSIofdifferentPLMN" false (CStruct "RUA_Gsm_map_IDNNS__routingbasis__tMSIofdifferentPLMN"); CM "iMSIresponsetopaging" false (CStruct "RUA_Gsm_map_IDNNS__routingbasis__iMSIresponsetopaging"); CM "iMSIcauseUEinitiatedEvent" false (CStruct "RUA_Gsm_map_IDNNS__routingbasis__iMSIcauseUEinitiatedEvent"); CM "iMEI" false (CStruct "RUA_Gsm_map_IDNNS__routingbasis__iMEI"); CM "spare2" false (CStruct "RUA_Gsm_map_IDNNS__routingbasis__spare2"); CM "spare1" false (CStruct "RUA_Gsm_map_IDNNS__routingbasis__spare1")]);
  (* include/osmocom/rua/RUA_IntraDomainNasNodeSelector.h:38-71 *)
  ("RUA_IntraDomainNasNodeSelector__version__release99__cn_Type_u", [CM "gsm_Map_IDNNS" false (CName "RUA_Gsm_map_IDNNS_t"); CM "ansi_41_IDNNS" false (CName "RUA_Ansi_41_IDNNS_t")]);
  (* include/osmocom/rua/RUA_IntraDomainNasNodeSelector.h:38-71 *)
  ("RUA_IntraDomainNasNodeSelector__version_u", [CM "release99" false (CStruct "RUA_IntraDomainNasNodeSelector__version__release99"); CM "later" false (CStruct "RUA_IntraDomainNasNodeSelector__version__later")]);
  (* include/osmocom/rua/RUA_PrivateIE-ID.h:31-40 *)
  ("RUA_PrivateIE_ID_u", [CM "local" false (CName "long"); CM "global" false (CName "OBJECT_IDENTIFIER_t")]);
  (* include/osmocom/rua/RUA_RUA-PDU.h:35-49 *)
  ("RUA_RUA_PDU_u", [CM "initiatingMessage" false (CName "RUA_InitiatingMessage_t"); CM "successfulOutcome" false (CName "RUA_SuccessfulOutcome_t"); CM "unsuccessfulOutcome" false (CName "RUA_UnsuccessfulOutcome_t")]) ].

Definition hnbap_enums : list (string * list (string * option Z)) := [
  (* include/osmocom/hnbap/HNBAP_Access-stratum-release-indicator.h:22-32 *)
  ("HNBAP_Access_stratum_release_indicator", [("HNBAP_Access_stratum_release_indicator_r99", Some 0); ("HNBAP_Access_stratum_release_indicator_rel_4", Some 1); ("HNBAP_Access_stratum_release_indicator_rel_5", Some 2); ("HNBAP_Access_stratum_release_indicator_rel_6", Some 3); ("HNBAP_Access_stratum_release_indicator_rel_7", Some 4); ("HNBAP_Access_stratum_release_indicator_rel_8_and_beyond", Some 5)]);
  (* include/osmocom/hnbap/HNBAP_AccessResult.h:22-28 *)
  ("HNBAP_AccessResult", [("HNBAP_AccessResult_allowed", Some 0); ("HNBAP_AccessResult_notAllowed", Some 1)]);
  (* include/osmocom/hnbap/HNBAP_AltitudeAndDirection.h:24-27 *)
  ("HNBAP_AltitudeAndDirection__directionOfAltitude", [("HNBAP_AltitudeAndDirection__directionOfAltitude_height", Some 0); ("HNBAP_AltitudeAndDirection__directionOfAltitude_depth", Some 1)]);
  (* include/osmocom/hnbap/HNBAP_CELL-FACHMobilitySupport.h:22-27 *)
  ("HNBAP_CELL_FACHMobilitySupport", [("HNBAP_CELL_FACHMobilitySupport_supported", Some 0)]);
  (* include/osmocom/hnbap/HNBAP_CN-DomainIndicator.h:22-25 *)
  ("HNBAP_CN_DomainIndicator", [("HNBAP_CN_DomainIndicator_cs_domain", Some 0); ("HNBAP_CN_DomainIndicator_ps_domain", Some 1)]);
  (* include/osmocom/hnbap/HNBAP_CSG-Capability.h:22-28 *)
  ("HNBAP_CSG_Capability", [("HNBAP_CSG_Capability_csg_capable", Some 0); ("HNBAP_CSG_Capability_not_csg_capable", Some 1)]);
  (* include/osmocom/hnbap/HNBAP_CSGMembershipStatus.h:22-28 *)
  ("HNBAP_CSGMembershipStatus", [("HNBAP_CSGMembershipStatus_member", Some 0); ("HNBAP_CSGMembershipStatus_non_member", Some 1)]);
  (* include/osmocom/hnbap/HNBAP_Cause.h:26-34 *)
  ("HNBAP_Cause_PR", [("HNBAP_Cause_PR_NOTHING", None); ("HNBAP_Cause_PR_radioNetwork", None); ("HNBAP_Cause_PR_transport", None); ("HNBAP_Cause_PR_protocol", None); ("HNBAP_Cause_PR_misc", None)]);
  (* include/osmocom/hnbap/HNBAP_CauseMisc.h:22-30 *)
  ("HNBAP_CauseMisc", [("HNBAP_CauseMisc_processing_overload", Some 0); ("HNBAP_CauseMisc_hardware_failure", Some 1); ("HNBAP_CauseMisc_o_and_m_intervention", Some 2); ("HNBAP_CauseMisc_unspecified", Some 3)]);
  (* include/osmocom/hnbap/HNBAP_CauseProtocol.h:22-33 *)
  ("HNBAP_CauseProtocol", [("HNBAP_CauseProtocol_transfer_syntax_error", Some 0); ("HNBAP_CauseProtocol_abstract_syntax_error_reject", Some 1); ("HNBAP_CauseProtocol_abstract_syntax_error_ignore_and_notify", Some 2); ("HNBAP_CauseProtocol_message_not_compatible_with_receiver_state", Some 3); ("HNBAP_CauseProtocol_semantic_error", Some 4); ("HNBAP_CauseProtocol_unspecified", Some 5); ("HNBAP_CauseProtocol_abstract_syntax_error_falsely_constructed_message", Some 6)]);
  (* include/osmocom/hnbap/HNBAP_CauseRadioNetwork.h:22-42 *)
  ("HNBAP_CauseRadioNetwork", [("HNBAP_CauseRadioNetwork_overload", Some 0); ("HNBAP_CauseRadioNetwork_unauthorised_Location", Some 1); ("HNBAP_CauseRadioNetwork_unauthorised_HNB", Some 2); ("HNBAP_CauseRadioNetwork_hNB_parameter_mismatch", Some 3); ("HNBAP_CauseRadioNetwork_invalid_UE_identity", Some 4); ("HNBAP_CauseRadioNetwork_uE_not_allowed_on_this_HNB", Some 5); ("HNBAP_CauseRadioNetwork_uE_unauthorised", Some 6); ("HNBAP_CauseRadioNetwork_connection_with_UE_lost", Some 7); ("HNBAP_CauseRadioNetwork_ue_RRC_release", Some 8); ("HNBAP_CauseRadioNetwork_hNB_not_registered", Some 9); ("HNBAP_CauseRadioNetwork_unspecified", Some 10); ("HNBAP_CauseRadioNetwork_normal", Some 11); ("HNBAP_CauseRadioNetwork_uE_relocated", Some 12); ("HNBAP_CauseRadioNetwork_ue_registered_in_another_HNB", Some 13); ("HNBAP_CauseRadioNetwork_no_neighbour_information_available", Some 14); ("HNBAP_CauseRadioNetwork_iurh_connection_to_that_neighbour_not_Allowed", Some 15)]);
  (* include/osmocom/hnbap/HNBAP_CauseTransport.h:22-28 *)
  ("HNBAP_CauseTransport", [("HNBAP_CauseTransport_transport_resource_unavailable", Some 0); ("HNBAP_CauseTransport_unspecified", Some 1)]);
  (* include/osmocom/hnbap/HNBAP_ConfigurationInformation.h:24-30 *)
  ("HNBAP_ConfigurationInformation_PR", [("HNBAP_ConfigurationInformation_PR_NOTHING", None); ("HNBAP_ConfigurationInformation_PR_provided", None); ("HNBAP_ConfigurationInformation_PR_missing", None)]);
  (* include/osmocom/hnbap/HNBAP_Criticality.h:22-26 *)
  ("HNBAP_Criticality", [("HNBAP_Criticality_reject", Some 0); ("HNBAP_Criticality_ignore", Some 1); ("HNBAP_Criticality_notify", Some 2)]);
  (* include/osmocom/hnbap/HNBAP_GeographicalCoordinates.h:25-28 *)
  ("HNBAP_GeographicalCoordinates__latitudeSign", [("HNBAP_GeographicalCoordinates__latitudeSign_north", Some 0); ("HNBAP_GeographicalCoordinates__latitudeSign_south", Some 1)]);
  (* include/osmocom/hnbap/HNBAP_HNB-Cell-Access-Mode.h:22-29 *)
  ("HNBAP_HNB_Cell_Access_Mode", [("HNBAP_HNB_Cell_Access_Mode_closed", Some 0); ("HNBAP_HNB_Cell_Access_Mode_hybrid", Some 1); ("HNBAP_HNB_Cell_Access_Mode_open", Some 2)]);
  (* include/osmocom/hnbap/HNBAP_HNB-GWResponse.h:25-32 *)
  ("HNBAP_HNB_GWResponse_PR", [("HNBAP_HNB_GWResponse_PR_NOTHING", None); ("HNBAP_HNB_GWResponse_PR_hNB", None); ("HNBAP_HNB_GWResponse_PR_macroRNC", None); ("HNBAP_HNB_GWResponse_PR_unknownU_RNTIIndication", None)]);
  (* include/osmocom/hnbap/HNBAP_HNB-RNL-Identity.h:23-28 *)
  ("HNBAP_HNB_RNL_Identity_PR", [("HNBAP_HNB_RNL_Identity_PR_NOTHING", None); ("HNBAP_HNB_RNL_Identity_PR_hNB_Identity_as_Cell_Identifier", None)]);
  (* include/osmocom/hnbap/HNBAP_HNBAP-PDU.h:25-32 *)
  ("HNBAP_HNBAP_PDU_PR", [("HNBAP_HNBAP_PDU_PR_NOTHING", None); ("HNBAP_HNBAP_PDU_PR_initiatingMessage", None); ("HNBAP_HNBAP_PDU_PR_successfulOutcome", None); ("HNBAP_HNBAP_PDU_PR_unsuccessfulOutcome", None)]);
  (* include/osmocom/hnbap/HNBAP_IP-Address.h:26-32 *)
  ("HNBAP_IP_Address__ipaddress_PR", [("HNBAP_IP_Address__ipaddress_PR_NOTHING", None); ("HNBAP_IP_Address__ipaddress_PR_ipv4info", None); ("HNBAP_IP_Address__ipaddress_PR_ipv6info", None)]);
  (* include/osmocom/hnbap/HNBAP_MacroCellID.h:24-30 *)
  ("HNBAP_MacroCellID_PR", [("HNBAP_MacroCellID_PR_NOTHING", None); ("HNBAP_MacroCellID_PR_uTRANCellID", None); ("HNBAP_MacroCellID_PR_gERANCellID", None)]);
  (* include/osmocom/hnbap/HNBAP_NeighbourIdentity.h:24-30 *)
  ("HNBAP_NeighbourIdentity_PR", [("HNBAP_NeighbourIdentity_PR_NOTHING", None); ("HNBAP_NeighbourIdentity_PR_hNB_RNL_Identity", None); ("HNBAP_NeighbourIdentity_PR_cell_ID", None)]);
  (* include/osmocom/hnbap/HNBAP_Presence.h:22-26 *)
  ("HNBAP_Presence", [("HNBAP_Presence_optional", Some 0); ("HNBAP_Presence_conditional", Some 1); ("HNBAP_Presence_mandatory", Some 2)]);
  (* include/osmocom/hnbap/HNBAP_PrivateIE-ID.h:24-28 *)
  ("HNBAP_PrivateIE_ID_PR", [("HNBAP_PrivateIE_ID_PR_NOTHING", None); ("HNBAP_PrivateIE_ID_PR_local", None); ("HNBAP_PrivateIE_ID_PR_global", None)]);
  (* include/osmocom/hnbap/HNBAP_ProcedureCode.h:22-34 *)
  ("HNBAP_ProcedureCode", [("HNBAP_ProcedureCode_id_HNBRegister", Some 1); ("HNBAP_ProcedureCode_id_HNBDe_Register", Some 2); ("HNBAP_ProcedureCode_id_UERegister", Some 3); ("HNBAP_ProcedureCode_id_UEDe_Register", Some 4); ("HNBAP_ProcedureCode_id_ErrorIndication", Some 5); ("HNBAP_ProcedureCode_id_privateMessage", Some 6); ("HNBAP_ProcedureCode_id_CSGMembershipUpdate", Some 7); ("HNBAP_ProcedureCode_id_TNLUpdate", Some 9); ("HNBAP_ProcedureCode_id_HNBConfigTransfer", Some 10); ("HNBAP_ProcedureCode_id_RelocationComplete", Some 11); ("HNBAP_ProcedureCode_id_U_RNTIQuery", Some 14)]);
  (* include/osmocom/hnbap/HNBAP_ProtocolIE-ID.h:22-65 *)
  ("HNBAP_ProtocolIE_ID", [("HNBAP_ProtocolIE_ID_id_Cause", Some 1); ("HNBAP_ProtocolIE_ID_id_CriticalityDiagnostics", Some 2); ("HNBAP_ProtocolIE_ID_id_HNB_Identity", Some 3); ("HNBAP_ProtocolIE_ID_id_Context_ID", Some 4); ("HNBAP_ProtocolIE_ID_id_UE_Identity", Some 5); ("HNBAP_ProtocolIE_ID_id_LAC", Some 6); ("HNBAP_ProtocolIE_ID_id_RAC", Some 7); ("HNBAP_ProtocolIE_ID_id_HNB_Location_Information", Some 8); ("HNBAP_ProtocolIE_ID_id_PLMNidentity", Some 9); ("HNBAP_ProtocolIE_ID_id_SAC", Some 10); ("HNBAP_ProtocolIE_ID_id_CellIdentity", Some 11); ("HNBAP_ProtocolIE_ID_id_Registration_Cause", Some 12); ("HNBAP_ProtocolIE_ID_id_UE_Capabilities", Some 13); ("HNBAP_ProtocolIE_ID_id_RNC_ID", Some 14); ("HNBAP_ProtocolIE_ID_id_CSG_ID", Some 15); ("HNBAP_ProtocolIE_ID_id_BackoffTimer", Some 16); ("HNBAP_ProtocolIE_ID_id_HNB_Internet_Information", Some 17); ("HNBAP_ProtocolIE_ID_id_HNB_Cell_Access_Mode", Some 18); ("HNBAP_ProtocolIE_ID_id_MuxPortNumber", Some 19); ("HNBAP_ProtocolIE_ID_id_Service_Area_For_Broadcast", Some 20); ("HNBAP_ProtocolIE_ID_id_CSGMembershipStatus", Some 21); ("HNBAP_ProtocolIE_ID_id_RABList", Some 22); ("HNBAP_ProtocolIE_ID_id_HNBConfigInfo", Some 23); ("HNBAP_ProtocolIE_ID_id_AccessResult", Some 25); ("HNBAP_ProtocolIE_ID_id_Update_cause", Some 26); ("HNBAP_ProtocolIE_ID_id_NeighbourInfoList", Some 27); ("HNBAP_ProtocolIE_ID_id_NeighbourInfoRequestList", Some 28); ("HNBAP_ProtocolIE_ID_id_Iurh_Signalling_TNL_Address", Some 29); ("HNBAP_ProtocolIE_ID_id_PSC", Some 30); ("HNBAP_ProtocolIE_ID_id_HNB_Cell_Identifier", Some 31); ("HNBAP_ProtocolIE_ID_id_Tunnel_Information", Some 41); ("HNBAP_ProtocolIE_ID_id_CELL_FACHMobilitySupport", Some 42); ("HNBAP_ProtocolIE_ID_id_S_RNTIPrefix", Some 43); ("HNBAP_ProtocolIE_ID_id_URAIdentity", Some 44); ("HNBAP_ProtocolIE_ID_id_NeighbourIdentity", Some 45); ("HNBAP_ProtocolIE_ID_id_HNBCapacity", Some 46); ("HNBAP_ProtocolIE_ID_id_NeighbourCellIdentityList", Some 47); ("HNBAP_ProtocolIE_ID_id_AdditionalNeighbourInfoList", Some 48); ("HNBAP_ProtocolIE_ID_id_U_RNTI", Some 49); ("HNBAP_ProtocolIE_ID_id_UnknownU_RNTIIndication", Some 50); ("HNBAP_ProtocolIE_ID_id_HNB_GWResponse", Some 51); ("HNBAP_ProtocolIE_ID_id_URAIdentityList", Some 52)]);
  (* include/osmocom/hnbap/HNBAP_Registration-Cause.h:22-29 *)
  ("HNBAP_Registration_Cause", [("HNBAP_Registration_Cause_emergency_call", Some 0); ("HNBAP_Registration_Cause_normal", Some 1); ("HNBAP_Registration_Cause_ue_relocation", Some 2)]);
  (* include/osmocom/hnbap/HNBAP_TransportInfo.h:27-33 *)
  ("HNBAP_TransportInfo__transportAssociation_PR", [("HNBAP_TransportInfo__transportAssociation_PR_NOTHING", None); ("HNBAP_TransportInfo__transportAssociation_PR_gtp_TEI", None); ("HNBAP_TransportInfo__transportAssociation_PR_bindingID", None)]);
  (* include/osmocom/hnbap/HNBAP_TriggeringMessage.h:22-26 *)
  ("HNBAP_TriggeringMessage", [("HNBAP_TriggeringMessage_initiating_message", Some 0); ("HNBAP_TriggeringMessage_successful_outcome", Some 1); ("HNBAP_TriggeringMessage_unsuccessful_outcome", Some 2)]);
  (* include/osmocom/hnbap/HNBAP_TypeOfError.h:22-28 *)
  ("HNBAP_TypeOfError", [("HNBAP_TypeOfError_not_understood", Some 0); ("HNBAP_TypeOfError_missing", Some 1)]);
  (* include/osmocom/hnbap/HNBAP_UE-Identity.h:30-42 *)
  ("HNBAP_UE_Identity_PR", [("HNBAP_UE_Identity_PR_NOTHING", None); ("HNBAP_UE_Identity_PR_iMSI", None); ("HNBAP_UE_Identity_PR_tMSILAI", None); ("HNBAP_UE_Identity_PR_pTMSIRAI", None); ("HNBAP_UE_Identity_PR_iMEI", None); ("HNBAP_UE_Identity_PR_eSN", None); ("HNBAP_UE_Identity_PR_iMSIDS41", None); ("HNBAP_UE_Identity_PR_iMSIESN", None); ("HNBAP_UE_Identity_PR_tMSIDS41", None)]);
  (* include/osmocom/hnbap/HNBAP_UnknownU-RNTIIndication.h:22-27 *)
  ("HNBAP_UnknownU_RNTIIndication", [("HNBAP_UnknownU_RNTIIndication_unknown", Some 0)]);
  (* include/osmocom/hnbap/HNBAP_Update-cause.h:22-27 *)
  ("HNBAP_Update_cause", [("HNBAP_Update_cause_relocation_preparation", Some 0)]) ].

Definition hnbap_typedefs : list (string * ctype) := [
  (* include/osmocom/hnbap/HNBAP_Access-stratum-release-indicator.h:35-35 *)
  ("HNBAP_Access_stratum_release_indicator_t", CName "long");
  (* include/osmocom/hnbap/HNBAP_AccessResult.h:31-31 *)
  ("HNBAP_AccessResult_t", CName "long");
  (* include/osmocom/hnbap/HNBAP_AdditionalNeighbourInfoList.h:24-29 *)
  ("HNBAP_AdditionalNeighbourInfoList_t", CStruct "HNBAP_AdditionalNeighbourInfoList");
  (* include/osmocom/hnbap/HNBAP_AltitudeAndDirection.h:30-40 *)
  ("HNBAP_AltitudeAndDirection_t", CStruct "HNBAP_AltitudeAndDirection");
  (* include/osmocom/hnbap/HNBAP_BackoffTimer.h:22-22 *)
  ("HNBAP_BackoffTimer_t", CName "long");
  (* include/osmocom/hnbap/HNBAP_BindingID.h:22-22 *)
  ("HNBAP_BindingID_t", CName "OCTET_STRING_t");
  (* include/osmocom/hnbap/HNBAP_CELL-FACHMobilitySupport.h:30-30 *)
  ("HNBAP_CELL_FACHMobilitySupport_t", CName "long");
  (* include/osmocom/hnbap/HNBAP_CGI.h:26-34 *)
  ("HNBAP_CGI_t", CStruct "HNBAP_CGI");
  (* include/osmocom/hnbap/HNBAP_CI.h:22-22 *)
  ("HNBAP_CI_t", CName "OCTET_STRING_t");
  (* include/osmocom/hnbap/HNBAP_CN-DomainIndicator.h:28-28 *)
  ("HNBAP_CN_DomainIndicator_t", CName "long");
  (* include/osmocom/hnbap/HNBAP_CSG-Capability.h:31-31 *)
  ("HNBAP_CSG_Capability_t", CName "long");
  (* include/osmocom/hnbap/HNBAP_CSG-ID.h:22-22 *)
  ("HNBAP_CSG_ID_t", CName "BIT_STRING_t");
  (* include/osmocom/hnbap/HNBAP_CSGMembershipStatus.h:31-31 *)
  ("HNBAP_CSGMembershipStatus_t", CName "long");
  (* include/osmocom/hnbap/HNBAP_CSGMembershipUpdate.h:25-39 *)
  ("HNBAP_CSGMembershipUpdate_t", CStruct "HNBAP_CSGMembershipUpdate");
  (* include/osmocom/hnbap/HNBAP_Cause.h:37-52 *)
  ("HNBAP_Cause_t", CStruct "HNBAP_Cause");
  (* include/osmocom/hnbap/HNBAP_CauseMisc.h:33-33 *)
  ("HNBAP_CauseMisc_t", CName "long");
  (* include/osmocom/hnbap/HNBAP_CauseProtocol.h:36-36 *)
  ("HNBAP_CauseProtocol_t", CName "long");
  (* include/osmocom/hnbap/HNBAP_CauseRadioNetwork.h:45-45 *)
  ("HNBAP_CauseRadioNetwork_t", CName "long");
  (* include/osmocom/hnbap/HNBAP_CauseTransport.h:31-31 *)
  ("HNBAP_CauseTransport_t", CName "long");
  (* include/osmocom/hnbap/HNBAP_CellIdentity.h:22-22 *)
  ("HNBAP_CellIdentity_t", CName "BIT_STRING_t");
  (* include/osmocom/hnbap/HNBAP_ConfigurationInformation.h:33-46 *)
  ("HNBAP_ConfigurationInformation_t", CStruct "HNBAP_ConfigurationInformation");
  (* include/osmocom/hnbap/HNBAP_Context-ID.h:22-22 *)
  ("HNBAP_Context_ID_t", CName "BIT_STRING_t");
  (* include/osmocom/hnbap/HNBAP_Criticality.h:29-29 *)
  ("HNBAP_Criticality_t", CName "long");
  (* include/osmocom/hnbap/HNBAP_CriticalityDiagnostics-IE-List-Value.h:26-38 *)
  ("HNBAP_CriticalityDiagnostics_IE_List_Value_t", CStruct "HNBAP_CriticalityDiagnostics_IE_List_Value");
  (* include/osmocom/hnbap/HNBAP_CriticalityDiagnostics-IE-List.h:24-29 *)
  ("HNBAP_CriticalityDiagnostics_IE_List_t", CStruct "HNBAP_CriticalityDiagnostics_IE_List");
  (* include/osmocom/hnbap/HNBAP_CriticalityDiagnostics.h:27-40 *)
  ("HNBAP_CriticalityDiagnostics_t", CStruct "HNBAP_CriticalityDiagnostics");
  (* include/osmocom/hnbap/HNBAP_ESN.h:22-22 *)
  ("HNBAP_ESN_t", CName "BIT_STRING_t");
  (* include/osmocom/hnbap/HNBAP_ErrorIndication.h:25-39 *)
  ("HNBAP_ErrorIndication_t", CStruct "HNBAP_ErrorIndication");
  (* include/osmocom/hnbap/HNBAP_GTP-TEI.h:22-22 *)
  ("HNBAP_GTP_TEI_t", CName "OCTET_STRING_t");
  (* include/osmocom/hnbap/HNBAP_GeographicalCoordinates.h:31-43 *)
  ("HNBAP_GeographicalCoordinates_t", CStruct "HNBAP_GeographicalCoordinates");
  (* include/osmocom/hnbap/HNBAP_GeographicalLocation.h:25-36 *)
  ("HNBAP_GeographicalLocation_t", CStruct "HNBAP_GeographicalLocation");
  (* include/osmocom/hnbap/HNBAP_HNB-Cell-Access-Mode.h:32-32 *)
  ("HNBAP_HNB_Cell_Access_Mode_t", CName "long");
  (* include/osmocom/hnbap/HNBAP_HNB-Cell-Identifier.h:25-36 *)
  ("HNBAP_HNB_Cell_Identifier_t", CStruct "HNBAP_HNB_Cell_Identifier");
  (* include/osmocom/hnbap/HNBAP_HNB-GWResponse.h:35-49 *)
  ("HNBAP_HNB_GWResponse_t", CStruct "HNBAP_HNB_GWResponse");
  (* include/osmocom/hnbap/HNBAP_HNB-Identity-Info.h:22-22 *)
  ("HNBAP_HNB_Identity_Info_t", CName "OCTET_STRING_t");
  (* include/osmocom/hnbap/HNBAP_HNB-Identity.h:24-34 *)
  ("HNBAP_HNB_Identity_t", CStruct "HNBAP_HNB_Identity");
  (* include/osmocom/hnbap/HNBAP_HNB-Location-Information.h:25-36 *)
  ("HNBAP_HNB_Location_Information_t", CStruct "HNBAP_HNB_Location_Information");
  (* include/osmocom/hnbap/HNBAP_HNB-RNL-Identity.h:31-43 *)
  ("HNBAP_HNB_RNL_Identity_t", CStruct "HNBAP_HNB_RNL_Identity");
  (* include/osmocom/hnbap/HNBAP_HNBAP-PDU.h:35-49 *)
  ("HNBAP_HNBAP_PDU_t", CStruct "HNBAP_HNBAP_PDU");
  (* include/osmocom/hnbap/HNBAP_HNBCapacity.h:22-22 *)
  ("HNBAP_HNBCapacity_t", CName "long");
  (* include/osmocom/hnbap/HNBAP_HNBConfigInfo.h:25-36 *)
  ("HNBAP_HNBConfigInfo_t", CStruct "HNBAP_HNBConfigInfo");
  (* include/osmocom/hnbap/HNBAP_HNBConfigTransferRequest.h:25-39 *)
  ("HNBAP_HNBConfigTransferRequest_t", CStruct "HNBAP_HNBConfigTransferRequest");
  (* include/osmocom/hnbap/HNBAP_HNBConfigTransferResponse.h:25-39 *)
  ("HNBAP_HNBConfigTransferResponse_t", CStruct "HNBAP_HNBConfigTransferResponse");
  (* include/osmocom/hnbap/HNBAP_HNBConfigurationInformationMissing.h:24-34 *)
  ("HNBAP_HNBConfigurationInformationMissing_t", CStruct "HNBAP_HNBConfigurationInformationMissing");
  (* include/osmocom/hnbap/HNBAP_HNBConfigurationInformationProvided.h:27-40 *)
  ("HNBAP_HNBConfigurationInformationProvided_t", CStruct "HNBAP_HNBConfigurationInformationProvided");
  (* include/osmocom/hnbap/HNBAP_HNBDe-Register.h:25-39 *)
  ("HNBAP_HNBDe_Register_t", CStruct "HNBAP_HNBDe_Register");
  (* include/osmocom/hnbap/HNBAP_HNBRegisterAccept.h:25-39 *)
  ("HNBAP_HNBRegisterAccept_t", CStruct "HNBAP_HNBRegisterAccept");
  (* include/osmocom/hnbap/HNBAP_HNBRegisterReject.h:25-39 *)
  ("HNBAP_HNBRegisterReject_t", CStruct "HNBAP_HNBRegisterReject");
  (* include/osmocom/hnbap/HNBAP_HNBRegisterRequest.h:25-39 *)
  ("HNBAP_HNBRegisterRequest_t", CStruct "HNBAP_HNBRegisterRequest");
  (* include/osmocom/hnbap/HNBAP_IE-Extensions.h:24-29 *)
  ("HNBAP_IE_Extensions_t", CStruct "HNBAP_IE_Extensions");
  (* include/osmocom/hnbap/HNBAP_IE.h:25-32 *)
  ("HNBAP_IE_t", CStruct "HNBAP_IE");
  (* include/osmocom/hnbap/HNBAP_IMEI.h:22-22 *)
  ("HNBAP_IMEI_t", CName "BIT_STRING_t");
  (* include/osmocom/hnbap/HNBAP_IMSI.h:22-22 *)
  ("HNBAP_IMSI_t", CName "OCTET_STRING_t");
  (* include/osmocom/hnbap/HNBAP_IMSIDS41.h:22-22 *)
  ("HNBAP_IMSIDS41_t", CName "OCTET_STRING_t");
  (* include/osmocom/hnbap/HNBAP_IMSIESN.h:24-30 *)
  ("HNBAP_IMSIESN_t", CStruct "HNBAP_IMSIESN");
  (* include/osmocom/hnbap/HNBAP_IP-Address.h:35-58 *)
  ("HNBAP_IP_Address_t", CStruct "HNBAP_IP_Address");
  (* include/osmocom/hnbap/HNBAP_InitiatingMessage.h:25-32 *)
  ("HNBAP_InitiatingMessage_t", CStruct "HNBAP_InitiatingMessage");
  (* include/osmocom/hnbap/HNBAP_Ipv4Address.h:22-22 *)
  ("HNBAP_Ipv4Address_t", CName "OCTET_STRING_t");
  (* include/osmocom/hnbap/HNBAP_Ipv6Address.h:22-22 *)
  ("HNBAP_Ipv6Address_t", CName "OCTET_STRING_t");
  (* include/osmocom/hnbap/HNBAP_Iurh-Signalling-TNL-AddressList.h:24-29 *)
  ("HNBAP_Iurh_Signalling_TNL_AddressList_t", CStruct "HNBAP_Iurh_Signalling_TNL_AddressList");
  (* include/osmocom/hnbap/HNBAP_LAC.h:22-22 *)
  ("HNBAP_LAC_t", CName "OCTET_STRING_t");
  (* include/osmocom/hnbap/HNBAP_LAI.h:24-34 *)
  ("HNBAP_LAI_t", CStruct "HNBAP_LAI");
  (* include/osmocom/hnbap/HNBAP_MacroCellID.h:33-46 *)
  ("HNBAP_MacroCellID_t", CStruct "HNBAP_MacroCellID");
  (* include/osmocom/hnbap/HNBAP_MacroCoverageInformation.h:24-34 *)
  ("HNBAP_MacroCoverageInformation_t", CStruct "HNBAP_MacroCoverageInformation");
  (* include/osmocom/hnbap/HNBAP_MuxPortNumber.h:22-22 *)
  ("HNBAP_MuxPortNumber_t", CName "long");
  (* include/osmocom/hnbap/HNBAP_NeighbourCellIdentityList.h:24-29 *)
  ("HNBAP_NeighbourCellIdentityList_t", CStruct "HNBAP_NeighbourCellIdentityList");
  (* include/osmocom/hnbap/HNBAP_NeighbourIdentity.h:33-46 *)
  ("HNBAP_NeighbourIdentity_t", CStruct "HNBAP_NeighbourIdentity");
  (* include/osmocom/hnbap/HNBAP_NeighbourInfoList.h:24-29 *)
  ("HNBAP_NeighbourInfoList_t", CStruct "HNBAP_NeighbourInfoList");
  (* include/osmocom/hnbap/HNBAP_NeighbourInfoRequestItem.h:24-34 *)
  ("HNBAP_NeighbourInfoRequestItem_t", CStruct "HNBAP_NeighbourInfoRequestItem");
  (* include/osmocom/hnbap/HNBAP_NeighbourInfoRequestList.h:24-29 *)
  ("HNBAP_NeighbourInfoRequestList_t", CStruct "HNBAP_NeighbourInfoRequestList");
  (* include/osmocom/hnbap/HNBAP_PLMNidentity.h:22-22 *)
  ("HNBAP_PLMNidentity_t", CName "OCTET_STRING_t");
  (* include/osmocom/hnbap/HNBAP_PSC.h:22-22 *)
  ("HNBAP_PSC_t", CName "BIT_STRING_t");
  (* include/osmocom/hnbap/HNBAP_PTMSI.h:22-22 *)
  ("HNBAP_PTMSI_t", CName "BIT_STRING_t");
  (* include/osmocom/hnbap/HNBAP_PTMSIRAI.h:24-34 *)
  ("HNBAP_PTMSIRAI_t", CStruct "HNBAP_PTMSIRAI");
  (* include/osmocom/hnbap/HNBAP_Presence.h:29-29 *)
  ("HNBAP_Presence_t", CName "long");
  (* include/osmocom/hnbap/HNBAP_PrivateIE-ID.h:31-40 *)
  ("HNBAP_PrivateIE_ID_t", CStruct "HNBAP_PrivateIE_ID");
  (* include/osmocom/hnbap/HNBAP_PrivateMessage.h:25-39 *)
  ("HNBAP_PrivateMessage_t", CStruct "HNBAP_PrivateMessage");
  (* include/osmocom/hnbap/HNBAP_ProcedureCode.h:37-37 *)
  ("HNBAP_ProcedureCode_t", CName "long");
  (* include/osmocom/hnbap/HNBAP_ProtocolIE-ID.h:68-68 *)
  ("HNBAP_ProtocolIE_ID_t", CName "long");
  (* include/osmocom/hnbap/HNBAP_RAB-ID.h:22-22 *)
  ("HNBAP_RAB_ID_t", CName "BIT_STRING_t");
  (* include/osmocom/hnbap/HNBAP_RABList.h:24-29 *)
  ("HNBAP_RABList_t", CStruct "HNBAP_RABList");
  (* include/osmocom/hnbap/HNBAP_RABListItem.h:26-39 *)
  ("HNBAP_RABListItem_t", CStruct "HNBAP_RABListItem");
  (* include/osmocom/hnbap/HNBAP_RAC.h:22-22 *)
  ("HNBAP_RAC_t", CName "OCTET_STRING_t");
  (* include/osmocom/hnbap/HNBAP_RAI.h:24-34 *)
  ("HNBAP_RAI_t", CStruct "HNBAP_RAI");
  (* include/osmocom/hnbap/HNBAP_RNC-ID.h:22-22 *)
  ("HNBAP_RNC_ID_t", CName "long");
  (* include/osmocom/hnbap/HNBAP_Registration-Cause.h:32-32 *)
  ("HNBAP_Registration_Cause_t", CName "long");
  (* include/osmocom/hnbap/HNBAP_RelocationComplete.h:25-39 *)
  ("HNBAP_RelocationComplete_t", CStruct "HNBAP_RelocationComplete");
  (* include/osmocom/hnbap/HNBAP_S-RNTIPrefix.h:22-22 *)
  ("HNBAP_S_RNTIPrefix_t", CName "BIT_STRING_t");
  (* include/osmocom/hnbap/HNBAP_SAC.h:22-22 *)
  ("HNBAP_SAC_t", CName "OCTET_STRING_t");
  (* include/osmocom/hnbap/HNBAP_SuccessfulOutcome.h:25-32 *)
  ("HNBAP_SuccessfulOutcome_t", CStruct "HNBAP_SuccessfulOutcome");
  (* include/osmocom/hnbap/HNBAP_TMSIDS41.h:22-22 *)
  ("HNBAP_TMSIDS41_t", CName "OCTET_STRING_t");
  (* include/osmocom/hnbap/HNBAP_TMSILAI.h:24-30 *)
  ("HNBAP_TMSILAI_t", CStruct "HNBAP_TMSILAI");
  (* include/osmocom/hnbap/HNBAP_TNLUpdateFailure.h:25-39 *)
  ("HNBAP_TNLUpdateFailure_t", CStruct "HNBAP_TNLUpdateFailure");
  (* include/osmocom/hnbap/HNBAP_TNLUpdateRequest.h:25-39 *)
  ("HNBAP_TNLUpdateRequest_t", CStruct "HNBAP_TNLUpdateRequest");
  (* include/osmocom/hnbap/HNBAP_TNLUpdateResponse.h:25-39 *)
  ("HNBAP_TNLUpdateResponse_t", CStruct "HNBAP_TNLUpdateResponse");
  (* include/osmocom/hnbap/HNBAP_TransportInfo.h:36-60 *)
  ("HNBAP_TransportInfo_t", CStruct "HNBAP_TransportInfo");
  (* include/osmocom/hnbap/HNBAP_TransportLayerAddress.h:22-22 *)
  ("HNBAP_TransportLayerAddress_t", CName "BIT_STRING_t");
  (* include/osmocom/hnbap/HNBAP_TriggeringMessage.h:29-29 *)
  ("HNBAP_TriggeringMessage_t", CName "long");
  (* include/osmocom/hnbap/HNBAP_Tunnel-Information.h:25-36 *)
  ("HNBAP_Tunnel_Information_t", CStruct "HNBAP_Tunnel_Information");
  (* include/osmocom/hnbap/HNBAP_TypeOfError.h:31-31 *)
  ("HNBAP_TypeOfError_t", CName "long");
  (* include/osmocom/hnbap/HNBAP_U-RNTI.h:22-22 *)
  ("HNBAP_U_RNTI_t", CName "BIT_STRING_t");
  (* include/osmocom/hnbap/HNBAP_U-RNTIQueryRequest.h:25-39 *)
  ("HNBAP_U_RNTIQueryRequest_t", CStruct "HNBAP_U_RNTIQueryRequest");
  (* include/osmocom/hnbap/HNBAP_U-RNTIQueryResponse.h:25-39 *)
  ("HNBAP_U_RNTIQueryResponse_t", CStruct "HNBAP_U_RNTIQueryResponse");
  (* include/osmocom/hnbap/HNBAP_UDP-Port-Number.h:22-22 *)
  ("HNBAP_UDP_Port_Number_t", CName "OCTET_STRING_t");
  (* include/osmocom/hnbap/HNBAP_UE-Capabilities.h:25-36 *)
  ("HNBAP_UE_Capabilities_t", CStruct "HNBAP_UE_Capabilities");
  (* include/osmocom/hnbap/HNBAP_UE-Identity.h:45-64 *)
  ("HNBAP_UE_Identity_t", CStruct "HNBAP_UE_Identity");
  (* include/osmocom/hnbap/HNBAP_UEDe-Register.h:25-39 *)
  ("HNBAP_UEDe_Register_t", CStruct "HNBAP_UEDe_Register");
  (* include/osmocom/hnbap/HNBAP_UERegisterAccept.h:25-39 *)
  ("HNBAP_UERegisterAccept_t", CStruct "HNBAP_UERegisterAccept");
  (* include/osmocom/hnbap/HNBAP_UERegisterReject.h:25-39 *)
  ("HNBAP_UERegisterReject_t", CStruct "HNBAP_UERegisterReject");
  (* include/osmocom/hnbap/HNBAP_UERegisterRequest.h:25-39 *)
  ("HNBAP_UERegisterRequest_t", CStruct "HNBAP_UERegisterRequest");
  (* include/osmocom/hnbap/HNBAP_URAIdentity.h:22-22 *)
  ("HNBAP_URAIdentity_t", CName "long");
  (* include/osmocom/hnbap/HNBAP_URAIdentityList.h:24-29 *)
  ("HNBAP_URAIdentityList_t", CStruct "HNBAP_URAIdentityList");
  (* include/osmocom/hnbap/HNBAP_UTRANCellID.h:27-36 *)
  ("HNBAP_UTRANCellID_t", CStruct "HNBAP_UTRANCellID");
  (* include/osmocom/hnbap/HNBAP_UnknownU-RNTIIndication.h:30-30 *)
  ("HNBAP_UnknownU_RNTIIndication_t", CName "long");
  (* include/osmocom/hnbap/HNBAP_UnsuccessfulOutcome.h:25-32 *)
  ("HNBAP_UnsuccessfulOutcome_t", CStruct "HNBAP_UnsuccessfulOutcome");
  (* include/osmocom/hnbap/HNBAP_Update-cause.h:30-30 *)
  ("HNBAP_Update_cause_t", CName "long");
  (* include/osmocom/hnbap/HNBAP_Access-stratum-release-indicator.h:22-32 *)
  ("e_HNBAP_Access_stratum_release_indicator", CEnum "HNBAP_Access_stratum_release_indicator");
  (* include/osmocom/hnbap/HNBAP_AccessResult.h:22-28 *)
  ("e_HNBAP_AccessResult", CEnum "HNBAP_AccessResult");
  (* include/osmocom/hnbap/HNBAP_AltitudeAndDirection.h:24-27 *)
  ("e_HNBAP_AltitudeAndDirection__directionOfAltitude", CEnum "HNBAP_AltitudeAndDirection__directionOfAltitude");
  (* include/osmocom/hnbap/HNBAP_CELL-FACHMobilitySupport.h:22-27 *)
  ("e_HNBAP_CELL_FACHMobilitySupport", CEnum "HNBAP_CELL_FACHMobilitySupport");
  (* include/osmocom/hnbap/HNBAP_CN-DomainIndicator.h:22-25 *)
  ("e_HNBAP_CN_DomainIndicator", CEnum "HNBAP_CN_DomainIndicator");
  (* include/osmocom/hnbap/HNBAP_CSG-Capability.h:22-28 *)
  ("e_HNBAP_CSG_Capability", CEnum "HNBAP_CSG_Capability");
  (* include/osmocom/hnbap/HNBAP_CSGMembershipStatus.h:22-28 *)
  ("e_HNBAP_CSGMembershipStatus", CEnum "HNBAP_CSGMembershipStatus");
  (* include/osmocom/hnbap/HNBAP_Cause.h:26-34 *)
  ("HNBAP_Cause_PR", CEnum "HNBAP_Cause_PR");
  (* include/osmocom/hnbap/HNBAP_CauseMisc.h:22-30 *)
  ("e_HNBAP_CauseMisc", CEnum "HNBAP_CauseMisc");
  (* include/osmocom/hnbap/HNBAP_CauseProtocol.h:22-33 *)
  ("e_HNBAP_CauseProtocol", CEnum "HNBAP_CauseProtocol");
  (* include/osmocom/hnbap/HNBAP_CauseRadioNetwork.h:22-42 *)
  ("e_HNBAP_CauseRadioNetwork", CEnum "HNBAP_CauseRadioNetwork");
  (* include/osmocom/hnbap/HNBAP_CauseTransport.h:22-28 *)
  ("e_HNBAP_CauseTransport", CEnum "HNBAP_CauseTransport");
  (* include/osmocom/hnbap/HNBAP_ConfigurationInformation.h:24-30 *)
  ("HNBAP_ConfigurationInformation_PR", CEnum "HNBAP_ConfigurationInformation_PR");
  (* include/osmocom/hnbap/HNBAP_Criticality.h:22-26 *)
  ("e_HNBAP_Criticality", CEnum "HNBAP_Criticality");
  (* include/osmocom/hnbap/HNBAP_GeographicalCoordinates.h:25-28 *)
  ("e_HNBAP_GeographicalCoordinates__latitudeSign", CEnum "HNBAP_GeographicalCoordinates__latitudeSign");
  (* include/osmocom/hnbap/HNBAP_HNB-Cell-Access-Mode.h:22-29 *)
  ("e_HNBAP_HNB_Cell_Access_Mode", CEnum "HNBAP_HNB_Cell_Access_Mode");
  (* include/osmocom/hnbap/HNBAP_HNB-GWResponse.h:25-32 *)
  ("HNBAP_HNB_GWResponse_PR", CEnum "HNBAP_HNB_GWResponse_PR");
  (* include/osmocom/hnbap/HNBAP_HNB-RNL-Identity.h:23-28 *)
  ("HNBAP_HNB_RNL_Identity_PR", CEnum "HNBAP_HNB_RNL_Identity_PR");
  (* include/osmocom/hnbap/HNBAP_HNBAP-PDU.h:25-32 *)
  ("HNBAP_HNBAP_PDU_PR", CEnum "HNBAP_HNBAP_PDU_PR");
  (* include/osmocom/hnbap/HNBAP_IP-Address.h:26-32 *)
  ("HNBAP_IP_Address__ipaddress_PR", CEnum "HNBAP_IP_Address__ipaddress_PR");
  (* include/osmocom/hnbap/HNBAP_MacroCellID.h:24-30 *)
  ("HNBAP_MacroCellID_PR", CEnum "HNBAP_MacroCellID_PR");
  (* include/osmocom/hnbap/HNBAP_NeighbourIdentity.h:24-30 *)
  ("HNBAP_NeighbourIdentity_PR", CEnum "HNBAP_NeighbourIdentity_PR");
  (* include/osmocom/hnbap/HNBAP_Presence.h:22-26 *)
  ("e_HNBAP_Presence", CEnum "HNBAP_Presence");
  (* include/osmocom/hnbap/HNBAP_PrivateIE-ID.h:24-28 *)
  ("HNBAP_PrivateIE_ID_PR", CEnum "HNBAP_PrivateIE_ID_PR");
  (* include/osmocom/hnbap/HNBAP_ProcedureCode.h:22-34 *)
  ("e_HNBAP_ProcedureCode", CEnum "HNBAP_ProcedureCode");
  (* include/osmocom/hnbap/HNBAP_ProtocolIE-ID.h:22-65 *)
  ("e_HNBAP_ProtocolIE_ID", CEnum "HNBAP_ProtocolIE_ID");
  (* include/osmocom/hnbap/HNBAP_Registration-Cause.h:22-29 *)
  ("e_HNBAP_Registration_Cause", CEnum "HNBAP_Registration_Cause");
  (* include/osmocom/hnbap/HNBAP_TransportInfo.h:27-33 *)
  ("HNBAP_TransportInfo__transportAssociation_PR", CEnum "HNBAP_TransportInfo__transportAssociation_PR");
  (* include/osmocom/hnbap/HNBAP_TriggeringMessage.h:22-26 *)
  ("e_HNBAP_TriggeringMessage", CEnum "HNBAP_TriggeringMessage");
  (* include/osmocom/hnbap/HNBAP_TypeOfError.h:22-28 *)
  ("e_HNBAP_TypeOfError", CEnum "HNBAP_TypeOfError");
  (* include/osmocom/hnbap/HNBAP_UE-Identity.h:30-42 *)
  ("HNBAP_UE_Identity_PR", CEnum "HNBAP_UE_Identity_PR");
  (* include/osmocom/hnbap/HNBAP_UnknownU-RNTIIndication.h:22-27 *)
  ("e_HNBAP_UnknownU_RNTIIndication", CEnum "HNBAP_UnknownU_RNTIIndication");
  (* include/osmocom/hnbap/HNBAP_Update-cause.h:22-27 *)
  ("e_HNBAP_Update_cause", CEnum "HNBAP_Update_cause") ].

Definition hnbap_structs : list (string * list cmember) := [
  (* include/osmocom/hnbap/HNBAP_AdditionalNeighbourInfoList.h:24-29 *)
  ("HNBAP_AdditionalNeighbourInfoList", [CM "list" false (CList (CName "HNBAP_HNBConfigInfo_t")); CM "_asn_ctx" false (CName "asn_struct_ctx_t")]);
  (* include/osmocom/hnbap/HNBAP_AltitudeAndDirection.h:30-40 *)
  ("HNBAP_AltitudeAndDirection", [CM "directionOfAltitude" false (CName "long"); CM "altitude" false (CName "long"); CM "_asn_ctx" false (CName "asn_struct_ctx_t")]);
  (* include/osmocom/hnbap/HNBAP_CGI.h:26-34 *)
  ("HNBAP_CGI", [CM "pLMNidentity" false (CName "HNBAP_PLMNidentity_t"); CM "lAC" false (CName "HNBAP_LAC_t"); CM "cI" false (CName "HNBAP_CI_t"); CM "iE_Extensions" true (CName "HNBAP_IE_Extensions_t"); CM "_asn_ctx" false (CName "asn_struct_ctx_t")]);
  (* include/osmocom/hnbap/HNBAP_CSGMembershipUpdate.h:25-39 *)
  ("HNBAP_CSGMembershipUpdate__csgMembershipUpdate_ies", [CM "list" false (CList (CName "HNBAP_IE_t")); CM "_asn_ctx" false (CName "asn_struct_ctx_t")]);
  (* include/osmocom/hnbap/HNBAP_CSGMembershipUpdate.h:25-39 *)
  ("HNBAP_CSGMembershipUpdate", [CM "csgMembershipUpdate_ies" false (CStruct "HNBAP_CSGMembershipUpdate__csgMembershipUpdate_ies"); CM "_asn_ctx" false (CName "asn_struct_ctx_t")]);
  (* include/osmocom/hnbap/HNBAP_Cause.h:37-52 *)
  ("HNBAP_Cause", [CM "present" false (CName "HNBAP_Cause_PR"); CM "choice" false (CUnion "HNBAP_Cause_u"); CM "_asn_ctx" false (CName "asn_struct_ctx_t")]);
  (* include/osmocom/hnbap/HNBAP_ConfigurationInformation.h:33-46 *)
  ("HNBAP_ConfigurationInformation", [CM "present" false (CName "HNBAP_ConfigurationInformation_PR"); CM "choice" false (CUnion "HNBAP_ConfigurationInformation_u"); CM "_asn_ctx" false (CName "asn_struct_ctx_t")]);
  (* include/osmocom/hnbap/HNBAP_CriticalityDiagnostics-IE-List-Value.h:26-38 *)
  ("HNBAP_CriticalityDiagnostics_IE_List_Value", [CM "iECriticality" false (CName "HNBAP_Criticality_t"); CM "iE_ID" false (CName "HNBAP_ProtocolIE_ID_t"); CM "typeOfError" false (CName "HNBAP_TypeOfError_t"); CM "iE_Extensions" true (CName "HNBAP_IE_Extensions_t"); CM "_asn_ctx" false (CName "asn_struct_ctx_t")]);
  (* include/osmocom/hnbap/HNBAP_CriticalityDiagnostics-IE-List.h:24-29 *)
  ("HNBAP_CriticalityDiagnostics_IE_List", [CM "list" false (CList (CName "HNBAP_CriticalityDiagnostics_IE_List_Value_t")); CM "_asn_ctx" false (CName "asn_struct_ctx_t")]);
  (* include/osmocom/hnbap/HNBAP_CriticalityDiagnostics.h:27-40 *)
  ("HNBAP_CriticalityDiagnostics", [CM "procedureCode" true (CName "HNBAP_ProcedureCode_t"); CM "triggeringMessage" true (CName "HNBAP_TriggeringMessage_t"); CM "procedureCriticality" true (CName "HNBAP_Criticality_t"); CM "iEsCriticalityDiagnostics" true (CName "HNBAP_CriticalityDiagnostics_IE_List_t"); CM "iE_Extensions" true (CName "HNBAP_IE_Extensions_t"); CM "_asn_ctx" false (CName "asn_struct_ctx_t")]);
  (* include/osmocom/hnbap/HNBAP_ErrorIndication.h:25-39 *)
  ("HNBAP_ErrorIndication__errorIndication_ies", [CM "list" false (CList (CName "HNBAP_IE_t")); CM "_asn_ctx" false (CName "asn_struct_ctx_t")]);
  (* include/osmocom/hnbap/HNBAP_ErrorIndication.h:25-39 *)
  ("HNBAP_ErrorIndication", [CM "errorIndication_ies" false (CStruct "HNBAP_ErrorIndication__errorIndication_ies"); CM "_asn_ctx" false (CName "asn_struct_ctx_t")]);
  (* include/osmocom/hnbap/HNBAP_GeographicalCoordinates.h:31-43 *)
  ("HNBAP_GeographicalCoordinates", [CM "latitudeSign" false (CName "long"); CM "latitude" false (CName "long"); CM "longitude" false (CName "long"); CM "iE_Extensions" true (CName "HNBAP_IE_Extensions_t"); CM "_asn_ctx" false (CName "asn_struct_ctx_t")]);
  (* include/osmocom/hnbap/HNBAP_GeographicalLocation.h:25-36 *)
  ("HNBAP_GeographicalLocation", [CM "geographicalCoordinates" false (CName "HNBAP_GeographicalCoordinates_t"); CM "altitudeAndDirection" false (CName "HNBAP_AltitudeAndDirection_t"); CM "iE_Extensions" true (CName "HNBAP_IE_Extensions_t"); CM "_asn_ctx" false (CName "asn_struct_ctx_t")]);
  (* include/osmocom/hnbap/HNBAP_HNB-Cell-Identifier.h:25-36 *)
  ("HNBAP_HNB_Cell_Identifier", [CM "pLMNidentity" false (CName "HNBAP_PLMNidentity_t"); CM "cellIdentity" false (CName "HNBAP_CellIdentity_t"); CM "iE_Extensions" true (CName "HNBAP_IE_Extensions_t"); CM "_asn_ctx" false (CName "asn_struct_ctx_t")]);
  (* include/osmocom/hnbap/HNBAP_HNB-GWResponse.h:35-49 *)
  ("HNBAP_HNB_GWResponse", [CM "present" false (CName "HNBAP_HNB_GWResponse_PR"); CM "choice" false (CUnion "HNBAP_HNB_GWResponse_u"); CM "_asn_ctx" false (CName "asn_struct_ctx_t")]);
  (* include/osmocom/hnbap/HNBAP_HNB-Identity.h:24-34 *)
  ("HNBAP_HNB_Identity", [CM "hNB_Identity_Info" false (CName "HNBAP_HNB_Identity_Info_t"); CM "iE_Extensions" true (CName "HNBAP_IE_Extensions_t"); CM "_asn_ctx" false (CName "asn_struct_ctx_t")]);
  (* include/osmocom/hnbap/HNBAP_HNB-Location-Information.h:25-36 *)
  ("HNBAP_HNB_Location_Information", [CM "macroCoverageInfo" true (CName "HNBAP_MacroCoverageInformation_t"); CM "geographicalCoordinates" true (CName "HNBAP_GeographicalLocation_t"); CM "iE_Extensions" true (CName "HNBAP_IE_Extensions_t"); CM "_asn_ctx" false (CName "asn_struct_ctx_t")]);
  (* include/osmocom/hnbap/HNBAP_HNB-RNL-Identity.h:31-43 *)
  ("HNBAP_HNB_RNL_Identity", [CM "present" false (CName "HNBAP_HNB_RNL_Identity_PR"); CM "choice" false (CUnion "HNBAP_HNB_RNL_Identity_u"); CM "_asn_ctx" false (CName "asn_struct_ctx_t")]);
  (* include/osmocom/hnbap/HNBAP_HNBAP-PDU.h:35-49 *)
  ("HNBAP_HNBAP_PDU", [CM "present" false (CName "HNBAP_HNBAP_PDU_PR"); CM "choice" false (CUnion "HNBAP_HNBAP_PDU_u"); CM "_asn_ctx" false (CName "asn_struct_ctx_t")]);
  (* include/osmocom/hnbap/HNBAP_HNBConfigInfo.h:25-36 *)
  ("HNBAP_HNBConfigInfo", [CM "hnb_RNL_Identity" false (CName "HNBAP_HNB_RNL_Identity_t"); CM "configurationInformation" false (CName "HNBAP_ConfigurationInformation_t"); CM "iE_Extensions" true (CName "HNBAP_IE_Extensions_t"); CM "_asn_ctx" false (CName "asn_struct_ctx_t")]);
  (* include/osmocom/hnbap/HNBAP_HNBConfigTransferRequest.h:25-39 *)
  ("HNBAP_HNBConfigTransferRequest__hnbConfigTransferRequest_ies", [CM "list" false (CList (CName "HNBAP_IE_t")); CM "_asn_ctx" false (CName "asn_struct_ctx_t")]);
  (* include/osmocom/hnbap/HNBAP_HNBConfigTransferRequest.h:25-39 *)
  ("HNBAP_HNBConfigTransferRequest", [CM "hnbConfigTransferRequest_ies" false (CStruct "HNBAP_HNBConfigTransferRequest__hnbConfigTransferRequest_ies"); CM "_asn_ctx" false (CName "asn_struct_ctx_t")]);
  (* include/osmocom/hnbap/HNBAP_HNBConfigTransferResponse.h:25-39 *)
  ("HNBAP_HNBConfigTransferResponse__hnbConfigTransferResponse_ies", [CM "list" false (CList (CName "HNBAP_IE_t")); CM "_asn_ctx" false (CName "asn_struct_ctx_t")]);
  (* include/osmocom/hnbap/HNBAP_HNBConfigTransferResponse.h:25-39 *)
  ("HNBAP_HNBConfigTransferResponse", [CM "hnbConfigTransferResponse_ies" false (CStruct "HNBAP_HNBConfigTransferResponse__hnbConfigTransferResponse_ies"); CM "_asn_ctx" false (CName "asn_struct_ctx_t")]);
  (* include/osmocom/hnbap/HNBAP_HNBConfigurationInformationMissing.h:24-34 *)
  ("HNBAP_HNBConfigurationInformationMissing", [CM "cause" false (CName "HNBAP_Cause_t"); CM "iE_Extensions" true (CName "HNBAP_IE_Extensions_t"); CM "_asn_ctx" false (CName "asn_struct_ctx_t")]);
  (* include/osmocom/hnbap/HNBAP_HNBConfigurationInformationProvided.h:27-40 *)
  ("HNBAP_HNBConfigurationInformationProvided", [CM "psc" true (CName "HNBAP_PSC_t"); CM "cSG_ID" true (CName "HNBAP_CSG_ID_t"); CM "hNB_Cell_Access_Mode" false (CName "HNBAP_HNB_Cell_Access_Mode_t"); CM "iurh_Signalling_TNL_AddressList" false (CName "HNBAP_Iurh_Signalling_TNL_AddressList_t"); CM "iE_Extensions" true (CName "HNBAP_IE_Extensions_t"); CM "_asn_ctx" false (CName "asn_struct_ctx_t")]);
  (* include/osmocom/hnbap/HNBAP_HNBDe-Register.h:25-39 *)
  ("HNBAP_HNBDe_Register__hnbDe_Register_ies", [CM "list" false (CList (CName "HNBAP_IE_t")); CM "_asn_ctx" false (CName "asn_struct_ctx_t")]);
  (* include/osmocom/hnbap/HNBAP_HNBDe-Register.h:25-39 *)
  ("HNBAP_HNBDe_Register", [CM "hnbDe_Register_ies" false (CStruct "HNBAP_HNBDe_Register__hnbDe_Register_ies"); CM "_asn_ctx" false (CName "asn_struct_ctx_t")]);
  (* include/osmocom/hnbap/HNBAP_HNBRegisterAccept.h:25-39 *)
  ("HNBAP_HNBRegisterAccept__hnbRegisterAccept_ies", [CM "list" false (CList (CName "HNBAP_IE_t")); CM "_asn_ctx" false (CName "asn_struct_ctx_t")]);
  (* include/osmocom/hnbap/HNBAP_HNBRegisterAccept.h:25-39 *)
  ("HNBAP_HNBRegisterAccept", [CM "hnbRegisterAccept_ies" false (CStruct "HNBAP_HNBRegisterAccept__hnbRegisterAccept_ies"); CM "_asn_ctx" false (CName "asn_struct_ctx_t")]);
  (* include/osmocom/hnbap/HNBAP_HNBRegisterReject.h:25-39 *)
  ("HNBAP_HNBRegisterReject__hnbRegisterReject_ies", [CM "list" false (CList (CName "HNBAP_IE_t")); CM "_asn_ctx" false (CName "asn_struct_ctx_t")]);
  (* include/osmocom/hnbap/HNBAP_HNBRegisterReject.h:25-39 *)
  ("HNBAP_HNBRegisterReject", [CM "hnbRegisterReject_ies" false (CStruct "HNBAP_HNBRegisterReject__hnbRegisterReject_ies"); CM "_asn_ctx" false (CName "asn_struct_ctx_t")]);
  (* include/osmocom/hnbap/HNBAP_HNBRegisterRequest.h:25-39 *)
  ("HNBAP_HNBRegisterRequest__hnbRegisterRequest_ies", [CM "list" false (CList (CName "HNBAP_IE_t")); CM "_asn_ctx" false (CName "asn_struct_ctx_t")]);
  (* include/osmocom/hnbap/HNBAP_HNBRegisterRequest.h:25-39 *)
  ("HNBAP_HNBRegisterRequest", [CM "hnbRegisterRequest_ies" false (CStruct "HNBAP_HNBRegisterRequest__hnbRegisterRequest_ies"); CM "_asn_ctx" false (CName "asn_struct_ctx_t")]);
  (* include/osmocom/hnbap/HNBAP_IE-Extensions.h:24-29 *)
  ("HNBAP_IE_Extensions", [CM "list" false (CList (CName "HNBAP_IE_t")); CM "_asn_ctx" false (CName "asn_struct_ctx_t")]);
  (* include/osmocom/hnbap/HNBAP_IE.h:25-32 *)
  ("HNBAP_IE", [CM "id" false (CName "HNBAP_ProtocolIE_ID_t"); CM "criticality" false (CName "HNBAP_Criticality_t"); CM "value" false (CName "ANY_t"); CM "_asn_ctx" false (CName "asn_struct_ctx_t")]);
  (* include/osmocom/hnbap/HNBAP_IMSIESN.h:24-30 *)
  ("HNBAP_IMSIESN", [CM "iMSIDS41" false (CName "HNBAP_IMSIDS41_t"); CM "eSN" false (CName "HNBAP_ESN_t"); CM "_asn_ctx" false (CName "asn_struct_ctx_t")]);
  (* include/osmocom/hnbap/HNBAP_IP-Address.h:35-58 *)
  ("HNBAP_IP_Address__ipaddress", [CM "present" false (CName "HNBAP_IP_Address__ipaddress_PR"); CM "choice" false (CUnion "HNBAP_IP_Address__ipaddress_u"); CM "_asn_ctx" false (CName "asn_struct_ctx_t")]);
  (* include/osmocom/hnbap/HNBAP_IP-Address.h:35-58 *)
  ("HNBAP_IP_Address", [CM "ipaddress" false (CStruct "HNBAP_IP_Address__ipaddress"); CM "iE_Extensions" true (CName "HNBAP_IE_Extensions_t"); CM "_asn_ctx" false (CName "asn_struct_ctx_t")]);
  (* include/osmocom/hnbap/HNBAP_InitiatingMessage.h:25-32 *)
  ("HNBAP_InitiatingMessage", [CM "procedureCode" false (CName "HNBAP_ProcedureCode_t"); CM "criticality" false (CName "HNBAP_Criticality_t"); CM "value" false (CName "ANY_t"); CM "_asn_ctx" false (CName "asn_struct_ctx_t")]);
  (* include/osmocom/hnbap/HNBAP_Iurh-Signalling-TNL-AddressList.h:24-29 *)
  ("HNBAP_Iurh_Signalling_TNL_AddressList", [CM "list" false (CList (CName "HNBAP_IP_Address_t")); CM "_asn_ctx" false (CName "asn_struct_ctx_t")]);
  (* include/osmocom/hnbap/HNBAP_LAI.h:24-34 *)
  ("HNBAP_LAI", [CM "pLMNID" false (CName "HNBAP_PLMNidentity_t"); CM "lAC" false (CName "HNBAP_LAC_t"); CM "_asn_ctx" false (CName "asn_struct_ctx_t")]);
  (* include/osmocom/hnbap/HNBAP_MacroCellID.h:33-46 *)
  ("HNBAP_MacroCellID", [CM "present" false (CName "HNBAP_MacroCellID_PR"); CM "choice" false (CUnion "HNBAP_MacroCellID_u"); CM "_asn_ctx" false (CName "asn_struct_ctx_t")]);
  (* include/osmocom/hnbap/HNBAP_MacroCoverageInformation.h:24-34 *)
  ("HNBAP_MacroCoverageInformation", [CM "cellIdentity" false (CName "HNBAP_MacroCellID_t"); CM "iE_Extensions" true (CName "HNBAP_IE_Extensions_t"); CM "_asn_ctx" false (CName "asn_struct_ctx_t")]);
  (* include/osmocom/hnbap/HNBAP_NeighbourCellIdentityList.h:24-29 *)
  ("HNBAP_NeighbourCellIdentityList", [CM "list" false (CList (CName "HNBAP_NeighbourIdentity_t")); CM "_asn_ctx" false (CName "asn_struct_ctx_t")]);
  (* include/osmocom/hnbap/HNBAP_NeighbourIdentity.h:33-46 *)
  ("HNBAP_NeighbourIdentity", [CM "present" false (CName "HNBAP_NeighbourIdentity_PR"); CM "choice" false (CUnion "HNBAP_NeighbourIdentity_u"); CM "_asn_ctx" false (CName "asn_struct_ctx_t")]);
  (* include/osmocom/hnbap/HNBAP_NeighbourInfoList.h:24-29 *)
  ("HNBAP_NeighbourInfoList", [CM "list" false (CList (CName "HNBAP_HNBConfigInfo_t")); CM "_asn_ctx" false (CName "asn_struct_ctx_t")]);
  (* include/osmocom/hnbap/HNBAP_NeighbourInfoRequestItem.h:24-34 *)
  ("HNBAP_NeighbourInfoRequestItem", [CM "hnb_RNL_Identity" false (CName "HNBAP_HNB_RNL_Identity_t"); CM "iE_Extensions" true (CName "HNBAP_IE_Extensions_t"); CM "_asn_ctx" false (CName "asn_struct_ctx_t")]);
  (* include/osmocom/hnbap/HNBAP_NeighbourInfoRequestList.h:24-29 *)
  ("HNBAP_NeighbourInfoRequestList", [CM "list" false (CList (CName "HNBAP_NeighbourInfoRequestItem_t")); CM "_asn_ctx" false (CName "asn_struct_ctx_t")]);
  (* include/osmocom/hnbap/HNBAP_PTMSIRAI.h:24-34 *)
  ("HNBAP_PTMSIRAI", [CM "pTMSI" false (CName "HNBAP_PTMSI_t"); CM "rAI" false (CName "HNBAP_RAI_t"); CM "_asn_ctx" false (CName "asn_struct_ctx_t")]);
  (* include/osmocom/hnbap/HNBAP_PrivateIE-ID.h:31-40 *)
  ("HNBAP_PrivateIE_ID", [CM "present" false (CName "HNBAP_PrivateIE_ID_PR"); CM "choice" false (CUnion "HNBAP_PrivateIE_ID_u"); CM "_asn_ctx" false (CName "asn_struct_ctx_t")]);
  (* include/osmocom/hnbap/HNBAP_PrivateMessage.h:25-39 *)
  ("HNBAP_PrivateMessage__privateMessage_ies", [CM "list" false (CList (CName "HNBAP_IE_t")); CM "_asn_ctx" false (CName "asn_struct_ctx_t")]);
  (* include/osmocom/hnbap/HNBAP_PrivateMessage.h:25-39 *)
  ("HNBAP_PrivateMessage", [CM "privateMessage_ies" false (CStruct "HNBAP_PrivateMessage__privateMessage_ies"); CM "_asn_ctx" false (CName "asn_struct_ctx_t")]);
  (* include/osmocom/hnbap/HNBAP_RABList.h:24-29 *)
  ("HNBAP_RABList", [CM "list" false (CList (CName "HNBAP_RABListItem_t")); CM "_asn_ctx" false (CName "asn_struct_ctx_t")]);
  (* include/osmocom/hnbap/HNBAP_RABListItem.h:26-39 *)
  ("HNBAP_RABListItem", [CM "rAB_ID" false (CName "HNBAP_RAB_ID_t"); CM "old_transport_Info" false (CName "HNBAP_TransportInfo_t"); CM "new_transport_Info" false (CName "HNBAP_TransportInfo_t"); CM "cn_domain_indicator" false (CName "HNBAP_CN_DomainIndicator_t"); CM "iE_Extensions" true (CName "HNBAP_IE_Extensions_t"); CM "_asn_ctx" false (CName "asn_struct_ctx_t")]);
  (* include/osmocom/hnbap/HNBAP_RAI.h:24-34 *)
  ("HNBAP_RAI", [CM "lAI" false (CName "HNBAP_LAI_t"); CM "rAC" false (CName "HNBAP_RAC_t"); CM "_asn_ctx" false (CName "asn_struct_ctx_t")]);
  (* include/osmocom/hnbap/HNBAP_RelocationComplete.h:25-39 *)
  ("HNBAP_RelocationComplete__relocationComplete_ies", [CM "list" false (CList (CName "HNBAP_IE_t")); CM "_asn_ctx" false (CName "asn_struct_ctx_t")]);
  (* include/osmocom/hnbap/HNBAP_RelocationComplete.h:25-39 *)
  ("HNBAP_RelocationComplete", [CM "relocationComplete_ies" false (CStruct "HNBAP_RelocationComplete__relocationComplete_ies"); CM "_asn_ctx" false (CName "asn_struct_ctx_t")]);
  (* include/osmocom/hnbap/HNBAP_SuccessfulOutcome.h:25-32 *)
  ("HNBAP_SuccessfulOutcome", [CM "procedureCode" false (CName "HNBAP_ProcedureCode_t"); CM "criticality" false (CName "HNBAP_Criticality_t"); CM "value" false (CName "ANY_t"); CM "_asn_ctx" false (CName "asn_struct_ctx_t")]);
  (* include/osmocom/hnbap/HNBAP_TMSILAI.h:24-30 *)
  ("HNBAP_TMSILAI", [CM "tMSI" false (CName "BIT_STRING_t"); CM "lAI" false (CName "HNBAP_LAI_t"); CM "_asn_ctx" false (CName "asn_struct_ctx_t")]);
  (* include/osmocom/hnbap/HNBAP_TNLUpdateFailure.h:25-39 *)
  ("HNBAP_TNLUpdateFailure__tnlUpdateFailure_ies", [CM "list" false (CList (CName "HNBAP_IE_t")); CM "_asn_ctx" false (CName "asn_struct_ctx_t")]);
  (* include/osmocom/hnbap/HNBAP_TNLUpdateFailure.h:25-39 *)
  ("HNBAP_TNLUpdateFailure", [CM "tnlUpdateFailure_ies" false (CStruct "HNBAP_TNLUpdateFailure__tnlUpdateFailure_ies"); CM "_asn_ctx" false (CName "asn_struct_ctx_t")]);
  (* include/osmocom/hnbap/HNBAP_TNLUpdateRequest.h:25-39 *)
  ("HNBAP_TNLUpdateRequest__tnlUpdateRequest_ies", [CM "list" false (CList (CName "HNBAP_IE_t")); CM "_asn_ctx" false (CName "asn_struct_ctx_t")]);
  (* include/osmocom/hnbap/HNBAP_TNLUpdateRequest.h:25-39 *)
  ("HNBAP_TNLUpdateRequest", [CM "tnlUpdateRequest_ies" false (CStruct "HNBAP_TNLUpdateRequest__tnlUpdateRequest_ies"); CM "_asn_ctx" false (CName "asn_struct_ctx_t")]);
  (* include/osmocom/hnbap/HNBAP_TNLUpdateResponse.h:25-39 *)
  ("HNBAP_TNLUpdateResponse__tnlUpdateResponse_ies", [CM "list" false (CList (CName "HNBAP_IE_t")); CM "_asn_ctx" false (CName "asn_struct_ctx_t")]);
  (* include/osmocom/hnbap/HNBAP_TNLUpdateResponse.h:25-39 *)
  ("HNBAP_TNLUpdateResponse", [CM "tnlUpdateResponse_ies" false (CStruct "HNBAP_TNLUpdateResponse__tnlUpdateResponse_ies"); CM "_asn_ctx" false (CName "asn_struct_ctx_t")]);
  (* include/osmocom/hnbap/HNBAP_TransportInfo.h:36-60 *)
  ("HNBAP_TransportInfo__transportAssociation", [CM "present" false (CName "HNBAP_TransportInfo__transportAssociation_PR"); CM "choice" false (CUnion "HNBAP_TransportInfo__transportAssociation_u"); CM "_asn_ctx" false (CName "asn_struct_ctx_t")]);
  (* include/osmocom/hnbap/HNBAP_TransportInfo.h:36-60 *)
  ("HNBAP_TransportInfo", [CM "transportLayerAddress" false (CName "HNBAP_TransportLayerAddress_t"); CM "transportAssociation" false (CStruct "HNBAP_TransportInfo__transportAssociation"); CM "iE_Extensions" true (CName "HNBAP_IE_Extensions_t"); CM "_asn_ctx" false (CName "asn_struct_ctx_t")]);
  (* include/osmocom/hnbap/HNBAP_Tunnel-Information.h:25-36 *)
  ("HNBAP_Tunnel_Information", [CM "iP_Address" false (CName "HNBAP_IP_Address_t"); CM "uDP_Port_Number" true (CName "HNBAP_UDP_Port_Number_t"); CM "iE_Extensions" true (CName "HNBAP_IE_Extensions_t"); CM "_asn_ctx" false (CName "asn_struct_ctx_t")]);
  (* include/osmocom/hnbap/HNBAP_U-RNTIQueryRequest.h:25-39 *)
  ("HNBAP_U_RNTIQueryRequest__u_RNTIQueryRequest_ies", [CM "list" false (CList (CName "HNBAP_IE_t")); CM "_asn_ctx" false (CName "asn_struct_ctx_t")]);
  (* include/osmocom/hnbap/HNBAP_U-RNTIQueryRequest.h:25-39 *)
  ("HNBAP_U_RNTIQueryRequest", [CM "u_RNTIQueryRequest_ies" false (CStruct "HNBAP_U_RNTIQueryRequest__u_RNTIQueryRequest_ies"); CM "_asn_ctx" false (CName "asn_struct_ctx_t")]);
  (* include/osmocom/hnbap/HNBAP_U-RNTIQueryResponse.h:25-39 *)
  ("HNBAP_U_RNTIQueryResponse__u_RNTIQueryResponse_ies", [CM "list" false (CList (CName "HNBAP_IE_t")); CM "_asn_ctx" false (CName "asn_struct_ctx_t")]);
  (* include/osmocom/hnbap/HNBAP_U-RNTIQueryResponse.h:25-39 *)
  ("HNBAP_U_RNTIQueryResponse", [CM "u_RNTIQueryResponse_ies" false (CStruct "HNBAP_U_RNTIQueryResponse__u_RNTIQueryResponse_ies"); CM "_asn_ctx" false (CName "asn_struct_ctx_t")]);
  (* include/osmocom/hnbap/HNBAP_UE-Capabilities.h:25-36 *)
  ("HNBAP_UE_Capabilities", [CM "access_stratum_release_indicator" false (CName "HNBAP_Access_stratum_release_indicator_t"); CM "csg_capability" false (CName "HNBAP_CSG_Capability_t"); CM "iE_Extensions" true (CName "HNBAP_IE_Extensions_t"); CM "_asn_ctx" false (CName "asn_struct_ctx_t")]);
  (* include/osmocom/hnbap/HNBAP_UE-Identity.h:45-64 *)
  ("HNBAP_UE_Identity", [CM "present" false (CName "HNBAP_UE_Identity_PR"); CM "choice" false (CUnion "HNBAP_UE_Identity_u"); CM "_asn_ctx" false (CName "asn_struct_ctx_t")]);
  (* include/osmocom/hnbap/HNBAP_UEDe-Register.h:25-39 *)
  ("HNBAP_UEDe_Register__ueDe_Register_ies", [CM "list" false (CList (CName "HNBAP_IE_t")); CM "_asn_ctx" false (CName "asn_struct_ctx_t")]);
  (* include/osmocom/hnbap/HNBAP_UEDe-Register.h:25-39 *)
  ("HNBAP_UEDe_Register", [CM "ueDe_Register_ies" false (CStruct "HNBAP_UEDe_Register__ueDe_Register_ies"); CM "_asn_ctx" false (CName "asn_struct_ctx_t")]);
  (* include/osmocom/hnbap/HNBAP_UERegisterAccept.h:25-39 *)
  ("HNBAP_UERegisterAccept__ueRegisterAccept_ies", [CM "list" false (CList (CName "HNBAP_IE_t")); CM "_asn_ctx" false (CName "asn_struct_ctx_t")]);
  (* include/osmocom/hnbap/HNBAP_UERegisterAccept.h:25-39 *)
  ("HNBAP_UERegisterAccept", [CM "ueRegisterAccept_ies" false (CStruct "HNBAP_UERegisterAccept__ueRegisterAccept_ies"); CM "_asn_ctx" false (CName "asn_struct_ctx_t")]);
  (* include/osmocom/hnbap/HNBAP_UERegisterReject.h:25-39 *)
  ("HNBAP_UERegisterReject__ueRegisterReject_ies", [CM "list" false (CList (CName "HNBAP_IE_t")); CM "_asn_ctx" false (CName "asn_struct_ctx_t")]);
  (* include/osmocom/hnbap/HNBAP_UERegisterReject.h:25-39 *)
  ("HNBAP_UERegisterReject", [CM "ueRegisterReject_ies" false (CStruct "HNBAP_UERegisterReject__ueRegisterReject_ies"); CM "_asn_ctx" false (CName "asn_struct_ctx_t")]);
  (* include/osmocom/hnbap/HNBAP_UERegisterRequest.h:25-39 *)
  ("HNBAP_UERegisterRequest__ueRegisterRequest_ies", [CM "list" false (CList (CName "HNBAP_IE_t")); CM "_asn_ctx" false (CName "asn_struct_ctx_t")]);
  (* include/osmocom/hnbap/HNBAP_UERegisterRequest.h:25-39 *)
  ("HNBAP_UERegisterRequest", [CM "ueRegisterRequest_ies" false (CStruct "HNBAP_UERegisterRequest__ueRegisterRequest_ies"); CM "_asn_ctx" false (CName "asn_struct_ctx_t")]);
  (* include/osmocom/hnbap/HNBAP_URAIdentityList.h:24-29 *)
  ("HNBAP_URAIdentityList", [CM "list" false (CList (CName "HNBAP_URAIdentity_t")); CM "_asn_ctx" false (CName "asn_struct_ctx_t")]);
  (* include/osmocom/hnbap/HNBAP_UTRANCellID.h:27-36 *)
  ("HNBAP_UTRANCellID", [CM "lAC" false (CName "HNBAP_LAC_t"); CM "rAC" false (CName "HNBAP_RAC_t"); CM "pLMNidentity" false (CName "HNBAP_PLMNidentity_t"); CM "uTRANcellID" false (CName "HNBAP_CellIdentity_t"); CM "iE_Extensions" true (CName "HNBAP_IE_Extensions_t"); CM "_asn_ctx" false (CName "asn_struct_ctx_t")]);
  (* include/osmocom/hnbap/HNBAP_UnsuccessfulOutcome.h:25-32 *)
  ("HNBAP_UnsuccessfulOutcome", [CM "procedureCode" false (CName "HNBAP_ProcedureCode_t"); CM "criticality" false (CName "HNBAP_Criticality_t"); CM "value" false (CName "ANY_t"); CM "_asn_ctx" false (CName "asn_struct_ctx_t")]) ].

Definition hnbap_unions : list (string * list cmember) := [
  (* include/osmocom/hnbap/HNBAP_Cause.h:37-52 *)
  ("HNBAP_Cause_u", [CM "radioNetwork" false (CName "HNBAP_CauseRadioNetwork_t"); CM "transport" false (CName "HNBAP_CauseTransport_t"); CM "protocol" false (CName "HNBAP_CauseProtocol_t"); CM "misc" false (CName "HNBAP_CauseMisc_t")]);
  (* include/osmocom/hnbap/HNBAP_ConfigurationInformation.h:33-46 *)
  ("HNBAP_ConfigurationInformation_u", [CM "provided" false (CName "HNBAP_HNBConfigurationInformationProvided_t"); CM "missing" false (CName "HNBAP_HNBConfigurationInformationMissing_t")]);
  (* include/osmocom/hnbap/HNBAP_HNB-GWResponse.h:35-49 *)
  ("HNBAP_HNB_GWResponse_u", [CM "hNB" false (CName "HNBAP_HNBConfigInfo_t"); CM "macroRNC" false (CName "HNBAP_RNC_ID_t"); CM "unknownU_RNTIIndication" false (CName "HNBAP_UnknownU_RNTIIndication_t")]);
  (* include/osmocom/hnbap/HNBAP_HNB-RNL-Identity.h:31-43 *)
  ("HNBAP_HNB_RNL_Identity_u", [CM "hNB_Identity_as_Cell_Identifier" false (CName "HNBAP_HNB_Cell_Identifier_t")]);
  (* include/osmocom/hnbap/HNBAP_HNBAP-PDU.h:35-49 *)
  ("HNBAP_HNBAP_PDU_u", [CM "initiatingMessage" false (CName "HNBAP_InitiatingMessage_t"); CM "successfulOutcome" false (CName "HNBAP_SuccessfulOutcome_t"); CM "unsuccessfulOutcome" false (CName "HNBAP_UnsuccessfulOutcome_t")]);
  (* include/osmocom/hnbap/HNBAP_IP-Address.h:35-58 *)
  ("HNBAP_IP_Address__ipaddress_u", [CM "ipv4info" false (CName "HNBAP_Ipv4Address_t"); CM "ipv6info" false (CName "HNBAP_Ipv6Address_t")]);
  (* include/osmocom/hnbap/HNBAP_MacroCellID.h:33-46 *)
  ("HNBAP_MacroCellID_u", [CM "uTRANCellID" false (CName "HNBAP_UTRANCellID_t"); CM "gERANCellID" false (CName "HNBAP_CGI_t")]);
  (* include/osmocom/hnbap/HNBAP_NeighbourIdentity.h:33-46 *)
  ("HNBAP_NeighbourIdentity_u", [CM "hNB_RNL_Identity" false (CName "HNBAP_HNB_RNL_Identity_t"); CM "cell_ID" false (CName "HNBAP_CellIdentity_t")]);
  (* include/osmocom/hnbap/HNBAP_PrivateIE-ID.h:31-40 *)
  ("HNBAP_PrivateIE_ID_u", [CM "local" false (CName "long"); CM "global" false (CName "OBJECT_IDENTIFIER_t")]);
  (* include/osmocom/hnbap/HNBAP_TransportInfo.h:36-60 *)
  ("HNBAP_TransportInfo__transportAssociation_u", [CM "gtp_TEI" false (CName "HNBAP_GTP_TEI_t"); CM "bindingID" false (CName "HNBAP_BindingID_t")]);
  (* include/osmocom/hnbap/HNBAP_UE-Identity.h:45-64 *)
  ("HNBAP_UE_Identity_u", [CM "iMSI" false (CName "HNBAP_IMSI_t"); CM "tMSILAI" false (CName "HNBAP_TMSILAI_t"); CM "pTMSIRAI" false (CName "HNBAP_PTMSIRAI_t"); CM "iMEI" false (CName "HNBAP_IMEI_t"); CM "eSN" false (CName "HNBAP_ESN_t"); CM "iMSIDS41" false (CName "HNBAP_IMSIDS41_t"); CM "iMSIESN" false (CName "HNBAP_IMSIESN_t"); CM "tMSIDS41" false (CName "HNBAP_TMSIDS41_t")]) ].

Definition sabp_enums : list (string * list (string * option Z)) := [
  (* include/osmocom/sabp/SABP_Broadcast-Message-Content-Validity-Indicator.h:22-27 *)
  ("SABP_Broadcast_Message_Content_Validity_Indicator", [("SABP_Broadcast_Message_Content_Validity_Indicator_broadcast_Message_Content_not_valid", Some 0)]);
  (* include/osmocom/sabp/SABP_Category.h:22-30 *)
  ("SABP_Category", [("SABP_Category_high_priority", Some 0); ("SABP_Category_background_priority", Some 1); ("SABP_Category_normal_priority", Some 2); ("SABP_Category_default_priority", Some 3)]);
  (* include/osmocom/sabp/SABP_Cause.h:22-41 *)
  ("SABP_Cause", [("SABP_Cause_parameter_not_recognised", Some 0); ("SABP_Cause_parameter_value_invalid", Some 1); ("SABP_Cause_valid_CN_message_not_identified", Some 2); ("SABP_Cause_service_area_identity_not_valid", Some 3); ("SABP_Cause_unrecognised_message", Some 4); ("SABP_Cause_missing_mandatory_element", Some 5); ("SABP_Cause_rNC_capacity_exceeded", Some 6); ("SABP_Cause_rNC_memory_exceeded", Some 7); ("SABP_Cause_service_area_broadcast_not_supported", Some 8); ("SABP_Cause_service_area_broadcast_not_operational", Some 9); ("SABP_Cause_message_reference_already_used", Some 10); ("SABP_Cause_unspecifed_error", Some 11); ("SABP_Cause_transfer_syntax_error", Some 12); ("SABP_Cause_semantic_error", Some 13); ("SABP_Cause_message_not_compatible_with_receiver_state", Some 14); ("SABP_Cause_abstract_syntax_error_reject", Some 15); ("SABP_Cause_abstract_syntax_error_ignore_and_notify", Some 16); ("SABP_Cause_abstract_syntax_error_falsely_constructed_message", Some 17)]);
  (* include/osmocom/sabp/SABP_Criticality.h:22-26 *)
  ("SABP_Criticality", [("SABP_Criticality_reject", Some 0); ("SABP_Criticality_ignore", Some 1); ("SABP_Criticality_notify", Some 2)]);
  (* include/osmocom/sabp/SABP_Number-Of-Broadcasts-Completed-Info.h:22-28 *)
  ("SABP_Number_Of_Broadcasts_Completed_Info", [("SABP_Number_Of_Broadcasts_Completed_Info_overflow", Some 0); ("SABP_Number_Of_Broadcasts_Completed_Info_unknown", Some 1)]);
  (* include/osmocom/sabp/SABP_Number-of-Broadcasts-Requested.h:22-24 *)
  ("SABP_Number_of_Broadcasts_Requested", [("SABP_Number_of_Broadcasts_Requested_broadcast_indefinitely", Some 0)]);
  (* include/osmocom/sabp/SABP_Paging-ETWS-Indicator.h:22-27 *)
  ("SABP_Paging_ETWS_Indicator", [("SABP_Paging_ETWS_Indicator_paging", Some 0)]);
  (* include/osmocom/sabp/SABP_Presence.h:22-26 *)
  ("SABP_Presence", [("SABP_Presence_optional", Some 0); ("SABP_Presence_conditional", Some 1); ("SABP_Presence_mandatory", Some 2)]);
  (* include/osmocom/sabp/SABP_ProcedureCode.h:22-31 *)
  ("SABP_ProcedureCode", [("SABP_ProcedureCode_id_Write_Replace", Some 0); ("SABP_ProcedureCode_id_Kill", Some 1); ("SABP_ProcedureCode_id_Load_Status_Enquiry", Some 2); ("SABP_ProcedureCode_id_Message_Status_Query", Some 3); ("SABP_ProcedureCode_id_Restart_Indication", Some 4); ("SABP_ProcedureCode_id_Reset", Some 5); ("SABP_ProcedureCode_id_Failure_Indication", Some 6); ("SABP_ProcedureCode_id_Error_Indication", Some 7)]);
  (* include/osmocom/sabp/SABP_ProtocolIE-ID.h:22-44 *)
  ("SABP_ProtocolIE_ID", [("SABP_ProtocolIE_ID_id_Broadcast_Message_Content", Some 0); ("SABP_ProtocolIE_ID_id_Category", Some 1); ("SABP_ProtocolIE_ID_id_Cause", Some 2); ("SABP_ProtocolIE_ID_id_Data_Coding_Scheme", Some 4); ("SABP_ProtocolIE_ID_id_Failure_List", Some 5); ("SABP_ProtocolIE_ID_id_Message_Identifier", Some 6); ("SABP_ProtocolIE_ID_id_New_Serial_Number", Some 7); ("SABP_ProtocolIE_ID_id_Number_of_Broadcasts_Completed_List", Some 8); ("SABP_ProtocolIE_ID_id_Number_of_Broadcasts_Requested", Some 9); ("SABP_ProtocolIE_ID_id_Old_Serial_Number", Some 10); ("SABP_ProtocolIE_ID_id_Radio_Resource_Loading_List", Some 11); ("SABP_ProtocolIE_ID_id_Recovery_Indication", Some 12); ("SABP_ProtocolIE_ID_id_Repetition_Period", Some 13); ("SABP_ProtocolIE_ID_id_Serial_Number", Some 14); ("SABP_ProtocolIE_ID_id_Service_Areas_List", Some 15); ("SABP_ProtocolIE_ID_id_MessageStructure", Some 16); ("SABP_ProtocolIE_ID_id_TypeOfError", Some 17); ("SABP_ProtocolIE_ID_id_Paging_ETWS_Indicator", Some 18); ("SABP_ProtocolIE_ID_id_Warning_Type", Some 19); ("SABP_ProtocolIE_ID_id_WarningSecurityInfo", Some 20); ("SABP_ProtocolIE_ID_id_Broadcast_Message_Content_Validity_Indicator", Some 21)]);
  (* include/osmocom/sabp/SABP_Recovery-Indication.h:22-25 *)
  ("SABP_Recovery_Indication", [("SABP_Recovery_Indication_data_lost", Some 0); ("SABP_Recovery_Indication_data_available", Some 1)]);
  (* include/osmocom/sabp/SABP_SABP-PDU.h:25-32 *)
  ("SABP_SABP_PDU_PR", [("SABP_SABP_PDU_PR_NOTHING", None); ("SABP_SABP_PDU_PR_initiatingMessage", None); ("SABP_SABP_PDU_PR_successfulOutcome", None); ("SABP_SABP_PDU_PR_unsuccessfulOutcome", None)]);
  (* include/osmocom/sabp/SABP_TriggeringMessage.h:22-27 *)
  ("SABP_TriggeringMessage", [("SABP_TriggeringMessage_initiating_message", Some 0); ("SABP_TriggeringMessage_successful_outcome", Some 1); ("SABP_TriggeringMessage_unsuccessful_outcome", Some 2); ("SABP_TriggeringMessage_outcome", Some 3)]);
  (* include/osmocom/sabp/SABP_TypeOfError.h:22-28 *)
  ("SABP_TypeOfError", [("SABP_TypeOfError_not_understood", Some 0); ("SABP_TypeOfError_missing", Some 1)]) ].

Definition sabp_typedefs : list (string * ctype) := [
  (* include/osmocom/sabp/SABP_Available-Bandwidth.h:22-22 *)
  ("SABP_Available_Bandwidth_t", CName "long");
  (* include/osmocom/sabp/SABP_Broadcast-Message-Content-Validity-Indicator.h:30-30 *)
  ("SABP_Broadcast_Message_Content_Validity_Indicator_t", CName "long");
  (* include/osmocom/sabp/SABP_Broadcast-Message-Content.h:22-22 *)
  ("SABP_Broadcast_Message_Content_t", CName "BIT_STRING_t");
  (* include/osmocom/sabp/SABP_Category.h:33-33 *)
  ("SABP_Category_t", CName "long");
  (* include/osmocom/sabp/SABP_Cause.h:44-44 *)
  ("SABP_Cause_t", CName "long");
  (* include/osmocom/sabp/SABP_Criticality-Diagnostics.h:27-40 *)
  ("SABP_Criticality_Diagnostics_t", CStruct "SABP_Criticality_Diagnostics");
  (* include/osmocom/sabp/SABP_Criticality.h:29-29 *)
  ("SABP_Criticality_t", CName "long");
  (* include/osmocom/sabp/SABP_CriticalityDiagnostics-IE-List-Value.h:26-38 *)
  ("SABP_CriticalityDiagnostics_IE_List_Value_t", CStruct "SABP_CriticalityDiagnostics_IE_List_Value");
  (* include/osmocom/sabp/SABP_CriticalityDiagnostics-IE-List.h:24-29 *)
  ("SABP_CriticalityDiagnostics_IE_List_t", CStruct "SABP_CriticalityDiagnostics_IE_List");
  (* include/osmocom/sabp/SABP_Data-Coding-Scheme.h:22-22 *)
  ("SABP_Data_Coding_Scheme_t", CName "BIT_STRING_t");
  (* include/osmocom/sabp/SABP_Error-Indication.h:25-39 *)
  ("SABP_Error_Indication_t", CStruct "SABP_Error_Indication");
  (* include/osmocom/sabp/SABP_Failure-List-Item.h:25-36 *)
  ("SABP_Failure_List_Item_t", CStruct "SABP_Failure_List_Item");
  (* include/osmocom/sabp/SABP_Failure-List.h:24-29 *)
  ("SABP_Failure_List_t", CStruct "SABP_Failure_List");
  (* include/osmocom/sabp/SABP_Failure.h:25-39 *)
  ("SABP_Failure_t", CStruct "SABP_Failure");
  (* include/osmocom/sabp/SABP_IE-Extensions.h:24-29 *)
  ("SABP_IE_Extensions_t", CStruct "SABP_IE_Extensions");
  (* include/osmocom/sabp/SABP_IE.h:25-32 *)
  ("SABP_IE_t", CStruct "SABP_IE");
  (* include/osmocom/sabp/SABP_InitiatingMessage.h:25-32 *)
  ("SABP_InitiatingMessage_t", CStruct "SABP_InitiatingMessage");
  (* include/osmocom/sabp/SABP_Kill-Complete.h:25-39 *)
  ("SABP_Kill_Complete_t", CStruct "SABP_Kill_Complete");
  (* include/osmocom/sabp/SABP_Kill-Failure.h:25-39 *)
  ("SABP_Kill_Failure_t", CStruct "SABP_Kill_Failure");
  (* include/osmocom/sabp/SABP_Kill.h:25-39 *)
  ("SABP_Kill_t", CStruct "SABP_Kill");
  (* include/osmocom/sabp/SABP_Load-Query-Complete.h:25-39 *)
  ("SABP_Load_Query_Complete_t", CStruct "SABP_Load_Query_Complete");
  (* include/osmocom/sabp/SABP_Load-Query-Failure.h:25-39 *)
  ("SABP_Load_Query_Failure_t", CStruct "SABP_Load_Query_Failure");
  (* include/osmocom/sabp/SABP_Load-Query.h:25-39 *)
  ("SABP_Load_Query_t", CStruct "SABP_Load_Query");
  (* include/osmocom/sabp/SABP_Message-Identifier.h:22-22 *)
  ("SABP_Message_Identifier_t", CName "BIT_STRING_t");
  (* include/osmocom/sabp/SABP_Message-Status-Query-Complete.h:25-39 *)
  ("SABP_Message_Status_Query_Complete_t", CStruct "SABP_Message_Status_Query_Complete");
  (* include/osmocom/sabp/SABP_Message-Status-Query-Failure.h:25-39 *)
  ("SABP_Message_Status_Query_Failure_t", CStruct "SABP_Message_Status_Query_Failure");
  (* include/osmocom/sabp/SABP_Message-Status-Query.h:25-39 *)
  ("SABP_Message_Status_Query_t", CStruct "SABP_Message_Status_Query");
  (* include/osmocom/sabp/SABP_MessageStructure-Value.h:25-36 *)
  ("SABP_MessageStructure_Value_t", CStruct "SABP_MessageStructure_Value");
  (* include/osmocom/sabp/SABP_MessageStructure.h:24-29 *)
  ("SABP_MessageStructure_t", CStruct "SABP_MessageStructure");
  (* include/osmocom/sabp/SABP_New-Serial-Number.h:23-23 *)
  ("SABP_New_Serial_Number_t", CName "SABP_Serial_Number_t");
  (* include/osmocom/sabp/SABP_Number-Of-Broadcasts-Completed-Info.h:31-31 *)
  ("SABP_Number_Of_Broadcasts_Completed_Info_t", CName "long");
  (* include/osmocom/sabp/SABP_Number-of-Broadcasts-Completed-List-Item.h:26-38 *)
  ("SABP_Number_of_Broadcasts_Completed_List_Item_t", CStruct "SABP_Number_of_Broadcasts_Completed_List_Item");
  (* include/osmocom/sabp/SABP_Number-of-Broadcasts-Completed-List.h:24-29 *)
  ("SABP_Number_of_Broadcasts_Completed_List_t", CStruct "SABP_Number_of_Broadcasts_Completed_List");
  (* include/osmocom/sabp/SABP_Number-of-Broadcasts-Requested.h:27-27 *)
  ("SABP_Number_of_Broadcasts_Requested_t", CName "long");
  (* include/osmocom/sabp/SABP_Old-Serial-Number.h:23-23 *)
  ("SABP_Old_Serial_Number_t", CName "SABP_Serial_Number_t");
  (* include/osmocom/sabp/SABP_Paging-ETWS-Indicator.h:30-30 *)
  ("SABP_Paging_ETWS_Indicator_t", CName "long");
  (* include/osmocom/sabp/SABP_Presence.h:29-29 *)
  ("SABP_Presence_t", CName "long");
  (* include/osmocom/sabp/SABP_ProcedureCode.h:34-34 *)
  ("SABP_ProcedureCode_t", CName "long");
  (* include/osmocom/sabp/SABP_ProtocolExtensionID.h:22-22 *)
  ("SABP_ProtocolExtensionID_t", CName "long");
  (* include/osmocom/sabp/SABP_ProtocolIE-ID.h:47-47 *)
  ("SABP_ProtocolIE_ID_t", CName "long");
  (* include/osmocom/sabp/SABP_Radio-Resource-Loading-List-Item.h:25-36 *)
  ("SABP_Radio_Resource_Loading_List_Item_t", CStruct "SABP_Radio_Resource_Loading_List_Item");
  (* include/osmocom/sabp/SABP_Radio-Resource-Loading-List.h:24-29 *)
  ("SABP_Radio_Resource_Loading_List_t", CStruct "SABP_Radio_Resource_Loading_List");
  (* include/osmocom/sabp/SABP_Recovery-Indication.h:28-28 *)
  ("SABP_Recovery_Indication_t", CName "long");
  (* include/osmocom/sabp/SABP_Repetition-Period.h:22-22 *)
  ("SABP_Repetition_Period_t", CName "long");
  (* include/osmocom/sabp/SABP_RepetitionNumber0.h:22-22 *)
  ("SABP_RepetitionNumber0_t", CName "long");
  (* include/osmocom/sabp/SABP_RepetitionNumber1.h:22-22 *)
  ("SABP_RepetitionNumber1_t", CName "long");
  (* include/osmocom/sabp/SABP_Reset-Complete.h:25-39 *)
  ("SABP_Reset_Complete_t", CStruct "SABP_Reset_Complete");
  (* include/osmocom/sabp/SABP_Reset-Failure.h:25-39 *)
  ("SABP_Reset_Failure_t", CStruct "SABP_Reset_Failure");
  (* include/osmocom/sabp/SABP_Reset.h:25-39 *)
  ("SABP_Reset_t", CStruct "SABP_Reset");
  (* include/osmocom/sabp/SABP_Restart.h:25-39 *)
  ("SABP_Restart_t", CStruct "SABP_Restart");
  (* include/osmocom/sabp/SABP_SABP-PDU.h:35-49 *)
  ("SABP_SABP_PDU_t", CStruct "SABP_SABP_PDU");
  (* include/osmocom/sabp/SABP_Serial-Number.h:22-22 *)
  ("SABP_Serial_Number_t", CName "BIT_STRING_t");
  (* include/osmocom/sabp/SABP_Service-Area-Identifier.h:23-30 *)
  ("SABP_Service_Area_Identifier_t", CStruct "SABP_Service_Area_Identifier");
  (* include/osmocom/sabp/SABP_Service-Areas-List.h:24-29 *)
  ("SABP_Service_Areas_List_t", CStruct "SABP_Service_Areas_List");
  (* include/osmocom/sabp/SABP_SuccessfulOutcome.h:25-32 *)
  ("SABP_SuccessfulOutcome_t", CStruct "SABP_SuccessfulOutcome");
  (* include/osmocom/sabp/SABP_TriggeringMessage.h:30-30 *)
  ("SABP_TriggeringMessage_t", CName "long");
  (* include/osmocom/sabp/SABP_TypeOfError.h:31-31 *)
  ("SABP_TypeOfError_t", CName "long");
  (* include/osmocom/sabp/SABP_UnsuccessfulOutcome.h:25-32 *)
  ("SABP_UnsuccessfulOutcome_t", CStruct "SABP_UnsuccessfulOutcome");
  (* include/osmocom/sabp/SABP_Warning-Type.h:22-22 *)
  ("SABP_Warning_Type_t", CName "OCTET_STRING_t");
  (* include/osmocom/sabp/SABP_WarningSecurityInfo.h:22-22 *)
  ("SABP_WarningSecurityInfo_t", CName "OCTET_STRING_t");
  (* include/osmocom/sabp/SABP_Write-Replace-Complete.h:25-39 *)
  ("SABP_Write_Replace_Complete_t", CStruct "SABP_Write_Replace_Complete");
  (* include/osmocom/sabp/SABP_Write-Replace-Failure.h:25-39 *)
  ("SABP_Write_Replace_Failure_t", CStruct "SABP_Write_Replace_Failure");
  (* include/osmocom/sabp/SABP_Write-Replace.h:25-39 *)
  ("SABP_Write_Replace_t", CStruct "SABP_Write_Replace");
  (* include/osmocom/sabp/SABP_Broadcast-Message-Content-Validity-Indicator.h:22-27 *)
  ("e_SABP_Broadcast_Message_Content_Validity_Indicator", CEnum "SABP_Broadcast_Message_Content_Validity_Indicator");
  (* include/osmocom/sabp/SABP_Category.h:22-30 *)
  ("e_SABP_Category", CEnum "SABP_Category");
  (* include/osmocom/sabp/SABP_Cause.h:22-41 *)
  ("e_SABP_Cause", CEnum "SABP_Cause");
  (* include/osmocom/sabp/SABP_Criticality.h:22-26 *)
  ("e_SABP_Criticality", CEnum "SABP_Criticality");
  (* include/osmocom/sabp/SABP_Number-Of-Broadcasts-Completed-Info.h:22-28 *)
  ("e_SABP_Number_Of_Broadcasts_Completed_Info", CEnum "SABP_Number_Of_Broadcasts_Completed_Info");
  (* include/osmocom/sabp/SABP_Number-of-Broadcasts-Requested.h:22-24 *)
  ("e_SABP_Number_of_Broadcasts_Requested", CEnum "SABP_Number_of_Broadcasts_Requested");
  (* include/osmocom/sabp/SABP_Paging-ETWS-Indicator.h:22-27 *)
  ("e_SABP_Paging_ETWS_Indicator", CEnum "SABP_Paging_ETWS_Indicator");
  (* include/osmocom/sabp/SABP_Presence.h:22-26 *)
  ("e_SABP_Presence", CEnum "SABP_Presence");
  (* include/osmocom/sabp/SABP_ProcedureCode.h:22-31 *)
  ("e_SABP_ProcedureCode", CEnum "SABP_ProcedureCode");
  (* include/osmocom/sabp/SABP_ProtocolIE-ID.h:22-44 *)
  ("e_SABP_ProtocolIE_ID", CEnum "SABP_ProtocolIE_ID");
  (* include/osmocom/sabp/SABP_Recovery-Indication.h:22-25 *)
  ("e_SABP_Recovery_Indication", CEnum "SABP_Recovery_Indication");
  (* include/osmocom/sabp/SABP_SABP-PDU.h:25-32 *)
  ("SABP_SABP_PDU_PR", CEnum "SABP_SABP_PDU_PR");
  (* include/osmocom/sabp/SABP_TriggeringMessage.h:22-27 *)
  ("e_SABP_TriggeringMessage", CEnum "SABP_TriggeringMessage");
  (* include/osmocom/sabp/SABP_TypeOfError.h:22-28 *)
  ("e_SABP_TypeOfError", CEnum "SABP_TypeOfError") ].

Definition sabp_structs : list (string * list cmember) := [
  (* include/osmocom/sabp/SABP_Criticality-Diagnostics.h:27-40 *)
  ("SABP_Criticality_Diagnostics", [CM "procedureCode" true (CName "SABP_ProcedureCode_t"); CM "triggeringMessage" true (CName "SABP_TriggeringMessage_t"); CM "procedureCriticality" true (CName "SABP_Criticality_t"); CM "iEsCriticalityDiagnostics" true (CName "SABP_CriticalityDiagnostics_IE_List_t"); CM "iE_Extensions" true (CName "SABP_IE_Extensions_t"); CM "_asn_ctx" false (CName "asn_struct_ctx_t")]);
  (* include/osmocom/sabp/SABP_CriticalityDiagnostics-IE-List-Value.h:26-38 *)
  ("SABP_CriticalityDiagnostics_IE_List_Value", [CM "iECriticality" false (CName "SABP_Criticality_t"); CM "iE_ID" false (CName "SABP_ProtocolIE_ID_t"); CM "repetitionNumber" true (CName "SABP_RepetitionNumber0_t"); CM "iE_Extensions" true (CName "SABP_IE_Extensions_t"); CM "_asn_ctx" false (CName "asn_struct_ctx_t")]);
  (* include/osmocom/sabp/SABP_CriticalityDiagnostics-IE-List.h:24-29 *)
  ("SABP_CriticalityDiagnostics_IE_List", [CM "list" false (CList (CName "SABP_CriticalityDiagnostics_IE_List_Value_t")); CM "_asn_ctx" false (CName "asn_struct_ctx_t")]);
  (* include/osmocom/sabp/SABP_Error-Indication.h:25-39 *)
  ("SABP_Error_Indication__error_Indication_ies", [CM "list" false (CList (CName "SABP_IE_t")); CM "_asn_ctx" false (CName "asn_struct_ctx_t")]);
  (* include/osmocom/sabp/SABP_Error-Indication.h:25-39 *)
  ("SABP_Error_Indication", [CM "error_Indication_ies" false (CStruct "SABP_Error_Indication__error_Indication_ies"); CM "_asn_ctx" false (CName "asn_struct_ctx_t")]);
  (* include/osmocom/sabp/SABP_Failure-List-Item.h:25-36 *)
  ("SABP_Failure_List_Item", [CM "service_area_identifier" false (CName "SABP_Service_Area_Identifier_t"); CM "cause" false (CName "SABP_Cause_t"); CM "iE_Extensions" true (CName "SABP_IE_Extensions_t"); CM "_asn_ctx" false (CName "asn_struct_ctx_t")]);
  (* include/osmocom/sabp/SABP_Failure-List.h:24-29 *)
  ("SABP_Failure_List", [CM "list" false (CList (CName "SABP_Failure_List_Item_t")); CM "_asn_ctx" false (CName "asn_struct_ctx_t")]);
  (* include/osmocom/sabp/SABP_Failure.h:25-39 *)
  ("SABP_Failure__failure_ies", [CM "list" false (CList (CName "SABP_IE_t")); CM "_asn_ctx" false (CName "asn_struct_ctx_t")]);
  (* include/osmocom/sabp/SABP_Failure.h:25-39 *)
  ("SABP_Failure", [CM "failure_ies" false (CStruct "SABP_Failure__failure_ies"); CM "_asn_ctx" false (CName "asn_struct_ctx_t")]);
  (* include/osmocom/sabp/SABP_IE-Extensions.h:24-29 *)
  ("SABP_IE_Extensions", [CM "list" false (CList (CName "SABP_IE_t")); CM "_asn_ctx" false (CName "asn_struct_ctx_t")]);
  (* include/osmocom/sabp/SABP_IE.h:25-32 *)
  ("SABP_IE", [CM "id" false (CName "SABP_ProtocolIE_ID_t"); CM "criticality" false (CName "SABP_Criticality_t"); CM "value" false (CName "ANY_t"); CM "_asn_ctx" false (CName "asn_struct_ctx_t")]);
  (* include/osmocom/sabp/SABP_InitiatingMessage.h:25-32 *)
  ("SABP_InitiatingMessage", [CM "procedureCode" false (CName "SABP_ProcedureCode_t"); CM "criticality" false (CName "SABP_Criticality_t"); CM "value" false (CName "ANY_t"); CM "_asn_ctx" false (CName "asn_struct_ctx_t")]);
  (* include/osmocom/sabp/SABP_Kill-Complete.h:25-39 *)
  ("SABP_Kill_Complete__kill_Complete_ies", [CM "list" false (CList (CName "SABP_IE_t")); CM "_asn_ctx" false (CName "asn_struct_ctx_t")]);
  (* include/osmocom/sabp/SABP_Kill-Complete.h:25-39 *)
  ("SABP_Kill_Complete", [CM "kill_Complete_ies" false (CStruct "SABP_Kill_Complete__kill_Complete_ies"); CM "_asn_ctx" false (CName "asn_struct_ctx_t")]);
  (* include/osmocom/sabp/SABP_Kill-Failure.h:25-39 *)
  ("SABP_Kill_Failure__kill_Failure_ies", [CM "list" false (CList (CName "SABP_IE_t")); CM "_asn_ctx" false (CName "asn_struct_ctx_t")]);
  (* include/osmocom/sabp/SABP_Kill-Failure.h:25-39 *)
  ("SABP_Kill_Failure", [CM "kill_Failure_ies" false (CStruct "SABP_Kill_Failure__kill_Failure_ies"); CM "_asn_ctx" false (CName "asn_struct_ctx_t")]);
  (* include/osmocom/sabp/SABP_Kill.h:25-39 *)
  ("SABP_Kill__kill_ies", [CM "list" false (CList (CName "SABP_IE_t")); CM "_asn_ctx" false (CName "asn_struct_ctx_t")]);
  (* include/osmocom/sabp/SABP_Kill.h:25-39 *)
  ("SABP_Kill", [CM "kill_ies" false (CStruct "SABP_Kill__kill_ies"); CM "_asn_ctx" false (CName "asn_struct_ctx_t")]);
  (* include/osmocom/sabp/SABP_Load-Query-Complete.h:25-39 *)
  ("SABP_Load_Query_Complete__load_Query_Complete_ies", [CM "list" false (CList (CName "SABP_IE_t")); CM "_asn_ctx" false (CName "asn_struct_ctx_t")]);
  (* include/osmocom/sabp/SABP_Load-Query-Complete.h:25-39 *)
  ("SABP_Load_Query_Complete", [CM "load_Query_Complete_ies" false (CStruct "SABP_Load_Query_Complete__load_Query_Complete_ies"); CM "_asn_ctx" false (CName "asn_struct_ctx_t")]);
  (* include/osmocom/sabp/SABP_Load-Query-Failure.h:25-39 *)
  ("SABP_Load_Query_Failure__load_Query_Failure_ies", [CM "list" false (CList (CName "SABP_IE_t")); CM "_asn_ctx" false (CName "asn_struct_ctx_t")]);
  (* include/osmocom/sabp/SABP_Load-Query-Failure.h:25-39 *)
  ("SABP_Load_Query_Failure", [CM "load_Query_Failure_ies" false (CStruct "SABP_Load_Query_Failure__load_Query_Failure_ies"); CM "_asn_ctx" false (CName "asn_struct_ctx_t")]);
  (* include/osmocom/sabp/SABP_Load-Query.h:25-39 *)
  ("SABP_Load_Query__load_Query_ies", [CM "list" false (CList (CName "SABP_IE_t")); CM "_asn_ctx" false (CName "asn_struct_ctx_t")]);
  (* include/osmocom/sabp/SABP_Load-Query.h:25-39 *)
  ("SABP_Load_Query", [CM "load_Query_ies" false (CStruct "SABP_Load_Query__load_Query_ies"); CM "_asn_ctx" false (CName "asn_struct_ctx_t")]);
  (* include/osmocom/sabp/SABP_Message-Status-Query-Complete.h:25-39 *)
  ("SABP_Message_Status_Query_Complete__message_Status_Query_Complete_ies", [CM "list" false (CList (CName "SABP_IE_t")); CM "_asn_ctx" false (CName "asn_struct_ctx_t")]);
  (* include/osmocom/sabp/SABP_Message-Status-Query-Complete.h:25-39 *)
  ("SABP_Message_Status_Query_Complete", [CM "message_Status_Query_Complete_ies" false (CStruct "SABP_Message_Status_Query_Complete__message_Status_Query_Complete_ies"); CM "_asn_ctx" false (CName "asn_struct_ctx_t")]);
  (* include/osmocom/sabp/SABP_Message-Status-Query-Failure.h:25-39 *)
  ("SABP_Message_Status_Query_Failure__message_Status_Query_Failure_ies", [CM "list" false (CList (CName "SABP_IE_t")); CM "_asn_ctx" false (CName "asn_struct_ctx_t")]);
  (* include/osmocom/sabp/SABP_Message-Status-Query-Failure.h:25-39 *)
  ("SABP_Message_Status_Query_Failure", [CM "message_Status_Query_Failure_ies" false (CStruct "SABP_Message_Status_Query_Failure__message_Status_Query_Failure_ies"); CM "_asn_ctx" false (CName "asn_struct_ctx_t")]);
  (* include/osmocom/sabp/SABP_Message-Status-Query.h:25-39 *)
  ("SABP_Message_Status_Query__message_Status_Query_ies", [CM "list" false (CList (CName "SABP_IE_t")); CM "_asn_ctx" false (CName "asn_struct_ctx_t")]);
  (* include/osmocom/sabp/SABP_Message-Status-Query.h:25-39 *)
  ("SABP_Message_Status_Query", [CM "message_Status_Query_ies" false (CStruct "SABP_Message_Status_Query__message_Status_Query_ies"); CM "_asn_ctx" false (CName "asn_struct_ctx_t")]);
  (* include/osmocom/sabp/SABP_MessageStructure-Value.h:25-36 *)
  ("SABP_MessageStructure_Value", [CM "iE_ID" false (CName "SABP_ProtocolIE_ID_t"); CM "repetitionNumber" true (CName "SABP_RepetitionNumber1_t"); CM "iE_Extensions" true (CName "SABP_IE_Extensions_t"); CM "_asn_ctx" false (CName "asn_struct_ctx_t")]);
  (* include/osmocom/sabp/SABP_MessageStructure.h:24-29 *)
  ("SABP_MessageStructure", [CM "list" false (CList (CName "SABP_MessageStructure_Value_t")); CM "_asn_ctx" false (CName "asn_struct_ctx_t")]);
  (* include/osmocom/sabp/SABP_Number-of-Broadcasts-Completed-List-Item.h:26-38 *)
  ("SABP_Number_of_Broadcasts_Completed_List_Item", [CM "service_area_identifier" false (CName "SABP_Service_Area_Identifier_t"); CM "number_of_broadcasts_completed" false (CName "long"); CM "number_of_broadcasts_completed_info" true (CName "SABP_Number_Of_Broadcasts_Completed_Info_t"); CM "iE_Extensions" true (CName "SABP_IE_Extensions_t"); CM "_asn_ctx" false (CName "asn_struct_ctx_t")]);
  (* include/osmocom/sabp/SABP_Number-of-Broadcasts-Completed-List.h:24-29 *)
  ("SABP_Number_of_Broadcasts_Completed_List", [CM "list" false (CList (CName "SABP_Number_of_Broadcasts_Completed_List_Item_t")); CM "_asn_ctx" false (CName "asn_struct_ctx_t")]);
  (* include/osmocom/sabp/SABP_Radio-Resource-Loading-List-Item.h:25-36 *)
  ("SABP_Radio_Resource_Loading_List_Item", [CM "service_area_identifier" false (CName "SABP_Service_Area_Identifier_t"); CM "available_bandwidth" false (CName "SABP_Available_Bandwidth_t"); CM "iE_Extensions" true (CName "SABP_IE_Extensions_t"); CM "_asn_ctx" false (CName "asn_struct_ctx_t")]);
  (* include/osmocom/sabp/SABP_Radio-Resource-Loading-List.h:24-29 *)
  ("SABP_Radio_Resource_Loading_List", [CM "list" false (CList (CName "SABP_Radio_Resource_Loading_List_Item_t")); CM "_asn_ctx" false (CName "asn_struct_ctx_t")]);
  (* include/osmocom/sabp/SABP_Reset-Complete.h:25-39 *)
  ("SABP_Reset_Complete__reset_Complete_ies", [CM "list" false (CList (CName "SABP_IE_t")); CM "_asn_ctx" false (CName "asn_struct_ctx_t")]);
  (* include/osmocom/sabp/SABP_Reset-Complete.h:25-39 *)
  ("SABP_Reset_Complete", [CM "reset_Complete_ies" false (CStruct "SABP_Reset_Complete__reset_Complete_ies"); CM "_asn_ctx" false (CName "asn_struct_ctx_t")]);
  (* include/osmocom/sabp/SABP_Reset-Failure.h:25-39 *)
  ("SABP_Reset_Failure__reset_Failure_ies", [CM "list" false (CList (CName "SABP_IE_t")); CM "_asn_ctx" false (CName "asn_struct_ctx_t")]);
  (* include/osmocom/sabp/SABP_Reset-Failure.h:25-39 *)
  ("SABP_Reset_Failure", [CM "reset_Failure_ies" false (CStruct "SABP_Reset_Failure__reset_Failure_ies"); CM "_asn_ctx" false (CName "asn_struct_ctx_t")]);
  (* include/osmocom/sabp/SABP_Reset.h:25-39 *)
  ("SABP_Reset__reset_ies", [CM "list" false (CList (CName "SABP_IE_t")); CM "_asn_ctx" false (CName "asn_struct_ctx_t")]);
  (* include/osmocom/sabp/SABP_Reset.h:25-39 *)
  ("SABP_Reset", [CM "reset_ies" false (CStruct "SABP_Reset__reset_ies"); CM "_asn_ctx" false (CName "asn_struct_ctx_t")]);
  (* include/osmocom/sabp/SABP_Restart.h:25-39 *)
  ("SABP_Restart__restart_ies", [CM "list" false (CList (CName "SABP_IE_t")); CM "_asn_ctx" false (CName "asn_struct_ctx_t")]);
  (* include/osmocom/sabp/SABP_Restart.h:25-39 *)
  ("SABP_Restart", [CM "restart_ies" false (CStruct "SABP_Restart__restart_ies"); CM "_asn_ctx" false (CName "asn_struct_ctx_t")]);
  (* include/osmocom/sabp/SABP_SABP-PDU.h:35-49 *)
  ("SABP_SABP_PDU", [CM "present" false (CName "SABP_SABP_PDU_PR"); CM "choice" false (CUnion "SABP_SABP_PDU_u"); CM "_asn_ctx" false (CName "asn_struct_ctx_t")]);
  (* include/osmocom/sabp/SABP_Service-Area-Identifier.h:23-30 *)
  ("SABP_Service_Area_Identifier", [CM "pLMNidentity" false (CName "OCTET_STRING_t"); CM "lac" false (CName "OCTET_STRING_t"); CM "sac" false (CName "OCTET_STRING_t"); CM "_asn_ctx" false (CName "asn_struct_ctx_t")]);
  (* include/osmocom/sabp/SABP_Service-Areas-List.h:24-29 *)
  ("SABP_Service_Areas_List", [CM "list" false (CList (CName "SABP_Service_Area_Identifier_t")); CM "_asn_ctx" false (CName "asn_struct_ctx_t")]);
  (* include/osmocom/sabp/SABP_SuccessfulOutcome.h:25-32 *)
  ("SABP_SuccessfulOutcome", [CM "procedureCode" false (CName "SABP_ProcedureCode_t"); CM "criticality" false (CName "SABP_Criticality_t"); CM "value" false (CName "ANY_t"); CM "_asn_ctx" false (CName "asn_struct_ctx_t")]);
  (* include/osmocom/sabp/SABP_UnsuccessfulOutcome.h:25-32 *)
  ("SABP_UnsuccessfulOutcome", [CM "procedureCode" false (CName "SABP_ProcedureCode_t"); CM "criticality" false (CName "SABP_Criticality_t"); CM "value" false (CName "ANY_t"); CM "_asn_ctx" false (CName "asn_struct_ctx_t")]);
  (* include/osmocom/sabp/SABP_Write-Replace-Complete.h:25-39 *)
  ("SABP_Write_Replace_Complete__write_Replace_Complete_ies", [CM "list" false (CList (CName "SABP_IE_t")); CM "_asn_ctx" false (CName "asn_struct_ctx_t")]);
  (* include/osmocom/sabp/SABP_Write-Replace-Complete.h:25-39 *)
  ("SABP_Write_Replace_Complete", [CM "write_Replace_Complete_ies" false (CStruct "SABP_Write_Replace_Complete__write_Replace_Complete_ies"); CM "_asn_ctx" false (CName "asn_struct_ctx_t")]);
  (* include/osmocom/sabp/SABP_Write-Replace-Failure.h:25-39 *)
  ("SABP_Write_Replace_Failure__write_Replace_Failure_ies", [CM "list" false (CList (CName "SABP_IE_t")); CM "_asn_ctx" false (CName "asn_struct_ctx_t")]);
  (* include/osmocom/sabp/SABP_Write-Replace-Failure.h:25-39 *)
  ("SABP_Write_Replace_Failure", [CM "write_Replace_Failure_ies" false (CStruct "SABP_Write_Replace_Failure__write_Replace_Failure_ies"); CM "_asn_ctx" false (CName "asn_struct_ctx_t")]);
  (* include/osmocom/sabp/SABP_Write-Replace.h:25-39 *)
  ("SABP_Write_Replace__write_Replace_ies", [CM "list" false (CList (CName "SABP_IE_t")); CM "_asn_ctx" false (CName "asn_struct_ctx_t")]);
  (* include/osmocom/sabp/SABP_Write-Replace.h:25-39 *)
  ("SABP_Write_Replace", [CM "write_Replace_ies" false (CStruct "SABP_Write_Replace__write_Replace_ies"); CM "_asn_ctx" false (CName "asn_struct_ctx_t")]) ].

Definition sabp_unions : list (string * list cmember) := [
  (* include/osmocom/sabp/SABP_SABP-PDU.h:35-49 *)
  ("SABP_SABP_PDU_u", [CM "initiatingMessage" false (CName "SABP_InitiatingMessage_t"); CM "successfulOutcome" false (CName "SABP_SuccessfulOutcome_t"); CM "unsuccessfulOutcome" false (CName "SABP_UnsuccessfulOutcome_t")]) ].

