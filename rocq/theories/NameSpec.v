(* Generated by a script: the enumerations of the headers asn1c generated, and of
   include/osmocom/ranap/iu_client.h: enumerators and their numbers. *)
From Coq Require Import String List ZArith.
Import ListNotations.
Local Open Scope string_scope.
Local Open Scope Z_scope.

(* include/osmocom/ranap/RANAP_CauseRadioNetwork.h:22-87 enum RANAP_CauseRadioNetwork *)
Definition E_RANAP_CauseRadioNetwork : list (string * Z) :=
  [ ("RANAP_CauseRadioNetwork_rab_pre_empted", 1);
    ("RANAP_CauseRadioNetwork_trelocoverall_expiry", 2);
    ("RANAP_CauseRadioNetwork_trelocprep_expiry", 3);
    ("RANAP_CauseRadioNetwork_treloccomplete_expiry", 4);
    ("RANAP_CauseRadioNetwork_tqueing_expiry", 5);
    ("RANAP_CauseRadioNetwork_relocation_triggered", 6);
    ("RANAP_CauseRadioNetwork_trellocalloc_expiry", 7);
    ("RANAP_CauseRadioNetwork_unable_to_establish_during_relocation", 8);
    ("RANAP_CauseRadioNetwork_unknown_target_rnc", 9);
    ("RANAP_CauseRadioNetwork_relocation_cancelled", 10);
    ("RANAP_CauseRadioNetwork_successful_relocation", 11);
    ("RANAP_CauseRadioNetwork_requested_ciphering_and_or_integrity_protection_algorithms_not_supported", 12);
    ("RANAP_CauseRadioNetwork_conflict_with_already_existing_integrity_protection_and_or_ciphering_information", 13);
    ("RANAP_CauseRadioNetwork_failure_in_the_radio_interface_procedure", 14);
    ("RANAP_CauseRadioNetwork_release_due_to_utran_generated_reason", 15);
    ("RANAP_CauseRadioNetwork_user_inactivity", 16);
    ("RANAP_CauseRadioNetwork_time_critical_relocation", 17);
    ("RANAP_CauseRadioNetwork_requested_traffic_class_not_available", 18);
    ("RANAP_CauseRadioNetwork_invalid_rab_parameters_value", 19);
    ("RANAP_CauseRadioNetwork_requested_maximum_bit_rate_not_available", 20);
    ("RANAP_CauseRadioNetwork_requested_guaranteed_bit_rate_not_available", 21);
    ("RANAP_CauseRadioNetwork_requested_transfer_delay_not_achievable", 22);
    ("RANAP_CauseRadioNetwork_invalid_rab_parameters_combination", 23);
    ("RANAP_CauseRadioNetwork_condition_violation_for_sdu_parameters", 24);
    ("RANAP_CauseRadioNetwork_condition_violation_for_traffic_handling_priority", 25);
    ("RANAP_CauseRadioNetwork_condition_violation_for_guaranteed_bit_rate", 26);
    ("RANAP_CauseRadioNetwork_user_plane_versions_not_supported", 27);
    ("RANAP_CauseRadioNetwork_iu_up_failure", 28);
    ("RANAP_CauseRadioNetwork_relocation_failure_in_target_CN_RNC_or_target_system", 29);
    ("RANAP_CauseRadioNetwork_invalid_RAB_ID", 30);
    ("RANAP_CauseRadioNetwork_no_remaining_rab", 31);
    ("RANAP_CauseRadioNetwork_interaction_with_other_procedure", 32);
    ("RANAP_CauseRadioNetwork_requested_maximum_bit_rate_for_dl_not_available", 33);
    ("RANAP_CauseRadioNetwork_requested_maximum_bit_rate_for_ul_not_available", 34);
    ("RANAP_CauseRadioNetwork_requested_guaranteed_bit_rate_for_dl_not_available", 35);
    ("RANAP_CauseRadioNetwork_requested_guaranteed_bit_rate_for_ul_not_available", 36);
    ("RANAP_CauseRadioNetwork_repeated_integrity_checking_failure", 37);
    ("RANAP_CauseRadioNetwork_requested_request_type_not_supported", 38);
    ("RANAP_CauseRadioNetwork_request_superseded", 39);
    ("RANAP_CauseRadioNetwork_release_due_to_UE_generated_signalling_connection_release", 40);
    ("RANAP_CauseRadioNetwork_resource_optimisation_relocation", 41);
    ("RANAP_CauseRadioNetwork_requested_information_not_available", 42);
    ("RANAP_CauseRadioNetwork_relocation_desirable_for_radio_reasons", 43);
    ("RANAP_CauseRadioNetwork_relocation_not_supported_in_target_RNC_or_target_system", 44);
    ("RANAP_CauseRadioNetwork_directed_retry", 45);
    ("RANAP_CauseRadioNetwork_radio_connection_with_UE_Lost", 46);
    ("RANAP_CauseRadioNetwork_rNC_unable_to_establish_all_RFCs", 47);
    ("RANAP_CauseRadioNetwork_deciphering_keys_not_available", 48);
    ("RANAP_CauseRadioNetwork_dedicated_assistance_data_not_available", 49);
    ("RANAP_CauseRadioNetwork_relocation_target_not_allowed", 50);
    ("RANAP_CauseRadioNetwork_location_reporting_congestion", 51);
    ("RANAP_CauseRadioNetwork_reduce_load_in_serving_cell", 52);
    ("RANAP_CauseRadioNetwork_no_radio_resources_available_in_target_cell", 53);
    ("RANAP_CauseRadioNetwork_gERAN_Iumode_failure", 54);
    ("RANAP_CauseRadioNetwork_access_restricted_due_to_shared_networks", 55);
    ("RANAP_CauseRadioNetwork_incoming_relocation_not_supported_due_to_PUESBINE_feature", 56);
    ("RANAP_CauseRadioNetwork_traffic_load_in_the_target_cell_higher_than_in_the_source_cell", 57);
    ("RANAP_CauseRadioNetwork_mBMS_no_multicast_service_for_this_UE", 58);
    ("RANAP_CauseRadioNetwork_mBMS_unknown_UE_ID", 59);
    ("RANAP_CauseRadioNetwork_successful_MBMS_session_start_no_data_bearer_necessary", 60);
    ("RANAP_CauseRadioNetwork_mBMS_superseded_due_to_NNSF", 61);
    ("RANAP_CauseRadioNetwork_mBMS_UE_linking_already_done", 62);
    ("RANAP_CauseRadioNetwork_mBMS_UE_de_linking_failure_no_existing_UE_linking", 63);
    ("RANAP_CauseRadioNetwork_tMGI_unknown", 64) ].
(* include/osmocom/ranap/RANAP_CauseTransmissionNetwork.h:22-25 enum RANAP_CauseTransmissionNetwork *)
Definition E_RANAP_CauseTransmissionNetwork : list (string * Z) :=
  [ ("RANAP_CauseTransmissionNetwork_signalling_transport_resource_failure", 65);
    ("RANAP_CauseTransmissionNetwork_iu_transport_connection_failed_to_establish", 66) ].
(* include/osmocom/ranap/RANAP_CauseNAS.h:22-27 enum RANAP_CauseNAS *)
Definition E_RANAP_CauseNAS : list (string * Z) :=
  [ ("RANAP_CauseNAS_user_restriction_start_indication", 81);
    ("RANAP_CauseNAS_user_restriction_end_indication", 82);
    ("RANAP_CauseNAS_normal_release", 83);
    ("RANAP_CauseNAS_csg_subscription_expiry", 84) ].
(* include/osmocom/ranap/RANAP_CauseProtocol.h:22-29 enum RANAP_CauseProtocol *)
Definition E_RANAP_CauseProtocol : list (string * Z) :=
  [ ("RANAP_CauseProtocol_transfer_syntax_error", 97);
    ("RANAP_CauseProtocol_semantic_error", 98);
    ("RANAP_CauseProtocol_message_not_compatible_with_receiver_state", 99);
    ("RANAP_CauseProtocol_abstract_syntax_error_reject", 100);
    ("RANAP_CauseProtocol_abstract_syntax_error_ignore_and_notify", 101);
    ("RANAP_CauseProtocol_abstract_syntax_error_falsely_constructed_message", 102) ].
(* include/osmocom/ranap/RANAP_CauseMisc.h:22-27 enum RANAP_CauseMisc *)
Definition E_RANAP_CauseMisc : list (string * Z) :=
  [ ("RANAP_CauseMisc_om_intervention", 113);
    ("RANAP_CauseMisc_no_resource_available", 114);
    ("RANAP_CauseMisc_unspecified_failure", 115);
    ("RANAP_CauseMisc_network_optimisation", 116) ].
(* include/osmocom/ranap/RANAP_CauseRadioNetworkExtension.h:22-36 enum RANAP_CauseRadioNetworkExtension *)
Definition E_RANAP_CauseRadioNetworkExtension : list (string * Z) :=
  [ ("RANAP_CauseRadioNetworkExtension_iP_multicast_address_and_APN_not_valid", 257);
    ("RANAP_CauseRadioNetworkExtension_mBMS_de_registration_rejected_due_to_implicit_registration", 258);
    ("RANAP_CauseRadioNetworkExtension_mBMS_request_superseded", 259);
    ("RANAP_CauseRadioNetworkExtension_mBMS_de_registration_during_session_not_allowed", 260);
    ("RANAP_CauseRadioNetworkExtension_mBMS_no_data_bearer_necessary", 261);
    ("RANAP_CauseRadioNetworkExtension_periodicLocationInformationNotAvailable", 262);
    ("RANAP_CauseRadioNetworkExtension_gTP_Resources_Unavailable", 263);
    ("RANAP_CauseRadioNetworkExtension_tMGI_inUse_overlapping_MBMS_service_area", 264);
    ("RANAP_CauseRadioNetworkExtension_mBMS_no_cell_in_MBMS_service_area", 265);
    ("RANAP_CauseRadioNetworkExtension_no_Iu_CS_UP_relocation", 266);
    ("RANAP_CauseRadioNetworkExtension_successful_MBMS_Session_Start_IP_Multicast_Bearer_established", 267);
    ("RANAP_CauseRadioNetworkExtension_cS_fallback_triggered", 268);
    ("RANAP_CauseRadioNetworkExtension_invalid_CSG_Id", 269) ].
(* include/osmocom/ranap/RANAP_ProcedureCode.h:22-70 enum RANAP_ProcedureCode *)
Definition E_RANAP_ProcedureCode : list (string * Z) :=
  [ ("RANAP_ProcedureCode_id_RAB_Assignment", 0);
    ("RANAP_ProcedureCode_id_Iu_Release", 1);
    ("RANAP_ProcedureCode_id_RelocationPreparation", 2);
    ("RANAP_ProcedureCode_id_RelocationResourceAllocation", 3);
    ("RANAP_ProcedureCode_id_RelocationCancel", 4);
    ("RANAP_ProcedureCode_id_SRNS_ContextTransfer", 5);
    ("RANAP_ProcedureCode_id_SecurityModeControl", 6);
    ("RANAP_ProcedureCode_id_DataVolumeReport", 7);
    ("RANAP_ProcedureCode_id_Reset", 9);
    ("RANAP_ProcedureCode_id_RAB_ReleaseRequest", 10);
    ("RANAP_ProcedureCode_id_Iu_ReleaseRequest", 11);
    ("RANAP_ProcedureCode_id_RelocationDetect", 12);
    ("RANAP_ProcedureCode_id_RelocationComplete", 13);
    ("RANAP_ProcedureCode_id_Paging", 14);
    ("RANAP_ProcedureCode_id_CommonID", 15);
    ("RANAP_ProcedureCode_id_CN_InvokeTrace", 16);
    ("RANAP_ProcedureCode_id_LocationReportingControl", 17);
    ("RANAP_ProcedureCode_id_LocationReport", 18);
    ("RANAP_ProcedureCode_id_InitialUE_Message", 19);
    ("RANAP_ProcedureCode_id_DirectTransfer", 20);
    ("RANAP_ProcedureCode_id_OverloadControl", 21);
    ("RANAP_ProcedureCode_id_ErrorIndication", 22);
    ("RANAP_ProcedureCode_id_SRNS_DataForward", 23);
    ("RANAP_ProcedureCode_id_ForwardSRNS_Context", 24);
    ("RANAP_ProcedureCode_id_privateMessage", 25);
    ("RANAP_ProcedureCode_id_CN_DeactivateTrace", 26);
    ("RANAP_ProcedureCode_id_ResetResource", 27);
    ("RANAP_ProcedureCode_id_RANAP_Relocation", 28);
    ("RANAP_ProcedureCode_id_RAB_ModifyRequest", 29);
    ("RANAP_ProcedureCode_id_LocationRelatedData", 30);
    ("RANAP_ProcedureCode_id_InformationTransfer", 31);
    ("RANAP_ProcedureCode_id_UESpecificInformation", 32);
    ("RANAP_ProcedureCode_id_UplinkInformationExchange", 33);
    ("RANAP_ProcedureCode_id_DirectInformationTransfer", 34);
    ("RANAP_ProcedureCode_id_MBMSSessionStart", 35);
    ("RANAP_ProcedureCode_id_MBMSSessionUpdate", 36);
    ("RANAP_ProcedureCode_id_MBMSSessionStop", 37);
    ("RANAP_ProcedureCode_id_MBMSUELinking", 38);
    ("RANAP_ProcedureCode_id_MBMSRegistration", 39);
    ("RANAP_ProcedureCode_id_MBMSCNDe_Registration_Procedure", 40);
    ("RANAP_ProcedureCode_id_MBMSRABEstablishmentIndication", 41);
    ("RANAP_ProcedureCode_id_MBMSRABRelease", 42);
    ("RANAP_ProcedureCode_id_enhancedRelocationComplete", 43);
    ("RANAP_ProcedureCode_id_enhancedRelocationCompleteConfirm", 44);
    ("RANAP_ProcedureCode_id_RANAPenhancedRelocation", 45);
    ("RANAP_ProcedureCode_id_SRVCCPreparation", 46);
    ("RANAP_ProcedureCode_id_UeRadioCapabilityMatch", 47) ].
(* include/osmocom/rua/RUA_CauseRadioNetwork.h:22-30 enum RUA_CauseRadioNetwork *)
Definition E_RUA_CauseRadioNetwork : list (string * Z) :=
  [ ("RUA_CauseRadioNetwork_normal", 0);
    ("RUA_CauseRadioNetwork_connect_failed", 1);
    ("RUA_CauseRadioNetwork_network_release", 2);
    ("RUA_CauseRadioNetwork_unspecified", 3) ].
(* include/osmocom/hnbap/HNBAP_CauseRadioNetwork.h:22-42 enum HNBAP_CauseRadioNetwork *)
Definition E_HNBAP_CauseRadioNetwork : list (string * Z) :=
  [ ("HNBAP_CauseRadioNetwork_overload", 0);
    ("HNBAP_CauseRadioNetwork_unauthorised_Location", 1);
    ("HNBAP_CauseRadioNetwork_unauthorised_HNB", 2);
    ("HNBAP_CauseRadioNetwork_hNB_parameter_mismatch", 3);
    ("HNBAP_CauseRadioNetwork_invalid_UE_identity", 4);
    ("HNBAP_CauseRadioNetwork_uE_not_allowed_on_this_HNB", 5);
    ("HNBAP_CauseRadioNetwork_uE_unauthorised", 6);
    ("HNBAP_CauseRadioNetwork_connection_with_UE_lost", 7);
    ("HNBAP_CauseRadioNetwork_ue_RRC_release", 8);
    ("HNBAP_CauseRadioNetwork_hNB_not_registered", 9);
    ("HNBAP_CauseRadioNetwork_unspecified", 10);
    ("HNBAP_CauseRadioNetwork_normal", 11);
    ("HNBAP_CauseRadioNetwork_uE_relocated", 12);
    ("HNBAP_CauseRadioNetwork_ue_registered_in_another_HNB", 13);
    ("HNBAP_CauseRadioNetwork_no_neighbour_information_available", 14);
    ("HNBAP_CauseRadioNetwork_iurh_connection_to_that_neighbour_not_Allowed", 15) ].
(* include/osmocom/rua/RUA_CauseTransport.h:22-28 enum RUA_CauseTransport *)
Definition E_RUA_CauseTransport : list (string * Z) :=
  [ ("RUA_CauseTransport_transport_resource_unavailable", 0);
    ("RUA_CauseTransport_unspecified", 1) ].
(* include/osmocom/hnbap/HNBAP_CauseTransport.h:22-28 enum HNBAP_CauseTransport *)
Definition E_HNBAP_CauseTransport : list (string * Z) :=
  [ ("HNBAP_CauseTransport_transport_resource_unavailable", 0);
    ("HNBAP_CauseTransport_unspecified", 1) ].
(* include/osmocom/rua/RUA_CauseProtocol.h:22-33 enum RUA_CauseProtocol *)
Definition E_RUA_CauseProtocol : list (string * Z) :=
  [ ("RUA_CauseProtocol_transfer_syntax_error", 0);
    ("RUA_CauseProtocol_abstract_syntax_error_reject", 1);
    ("RUA_CauseProtocol_abstract_syntax_error_ignore_and_notify", 2);
    ("RUA_CauseProtocol_message_not_compatible_with_receiver_state", 3);
    ("RUA_CauseProtocol_semantic_error", 4);
    ("RUA_CauseProtocol_unspecified", 5);
    ("RUA_CauseProtocol_abstract_syntax_error_falsely_constructed_message", 6) ].
(* include/osmocom/hnbap/HNBAP_CauseProtocol.h:22-33 enum HNBAP_CauseProtocol *)
Definition E_HNBAP_CauseProtocol : list (string * Z) :=
  [ ("HNBAP_CauseProtocol_transfer_syntax_error", 0);
    ("HNBAP_CauseProtocol_abstract_syntax_error_reject", 1);
    ("HNBAP_CauseProtocol_abstract_syntax_error_ignore_and_notify", 2);
    ("HNBAP_CauseProtocol_message_not_compatible_with_receiver_state", 3);
    ("HNBAP_CauseProtocol_semantic_error", 4);
    ("HNBAP_CauseProtocol_unspecified", 5);
    ("HNBAP_CauseProtocol_abstract_syntax_error_falsely_constructed_message", 6) ].
(* include/osmocom/rua/RUA_CauseMisc.h:22-30 enum RUA_CauseMisc *)
Definition E_RUA_CauseMisc : list (string * Z) :=
  [ ("RUA_CauseMisc_processing_overload", 0);
    ("RUA_CauseMisc_hardware_failure", 1);
    ("RUA_CauseMisc_o_and_m_intervention", 2);
    ("RUA_CauseMisc_unspecified", 3) ].
(* include/osmocom/hnbap/HNBAP_CauseMisc.h:22-30 enum HNBAP_CauseMisc *)
Definition E_HNBAP_CauseMisc : list (string * Z) :=
  [ ("HNBAP_CauseMisc_processing_overload", 0);
    ("HNBAP_CauseMisc_hardware_failure", 1);
    ("HNBAP_CauseMisc_o_and_m_intervention", 2);
    ("HNBAP_CauseMisc_unspecified", 3) ].
(* include/osmocom/sabp/SABP_Cause.h:22-41 enum SABP_Cause *)
Definition E_SABP_Cause : list (string * Z) :=
  [ ("SABP_Cause_parameter_not_recognised", 0);
    ("SABP_Cause_parameter_value_invalid", 1);
    ("SABP_Cause_valid_CN_message_not_identified", 2);
    ("SABP_Cause_service_area_identity_not_valid", 3);
    ("SABP_Cause_unrecognised_message", 4);
    ("SABP_Cause_missing_mandatory_element", 5);
    ("SABP_Cause_rNC_capacity_exceeded", 6);
    ("SABP_Cause_rNC_memory_exceeded", 7);
    ("SABP_Cause_service_area_broadcast_not_supported", 8);
    ("SABP_Cause_service_area_broadcast_not_operational", 9);
    ("SABP_Cause_message_reference_already_used", 10);
    ("SABP_Cause_unspecifed_error", 11);
    ("SABP_Cause_transfer_syntax_error", 12);
    ("SABP_Cause_semantic_error", 13);
    ("SABP_Cause_message_not_compatible_with_receiver_state", 14);
    ("SABP_Cause_abstract_syntax_error_reject", 15);
    ("SABP_Cause_abstract_syntax_error_ignore_and_notify", 16);
    ("SABP_Cause_abstract_syntax_error_falsely_constructed_message", 17) ].
(* include/osmocom/sabp/SABP_ProcedureCode.h:22-31 enum SABP_ProcedureCode *)
Definition E_SABP_ProcedureCode : list (string * Z) :=
  [ ("SABP_ProcedureCode_id_Write_Replace", 0);
    ("SABP_ProcedureCode_id_Kill", 1);
    ("SABP_ProcedureCode_id_Load_Status_Enquiry", 2);
    ("SABP_ProcedureCode_id_Message_Status_Query", 3);
    ("SABP_ProcedureCode_id_Restart_Indication", 4);
    ("SABP_ProcedureCode_id_Reset", 5);
    ("SABP_ProcedureCode_id_Failure_Indication", 6);
    ("SABP_ProcedureCode_id_Error_Indication", 7) ].
(* include/osmocom/ranap/RANAP_RANAP-PDU.h:26-33 enum RANAP_RANAP_PDU_PR without _NOTHING *)
Definition E_RANAP_RANAP_PDU_PR : list (string * Z) :=
  [ ("RANAP_RANAP_PDU_PR_initiatingMessage", 1);
    ("RANAP_RANAP_PDU_PR_successfulOutcome", 2);
    ("RANAP_RANAP_PDU_PR_unsuccessfulOutcome", 3);
    ("RANAP_RANAP_PDU_PR_outcome", 4) ].
(* include/osmocom/sabp/SABP_SABP-PDU.h:25-31 enum SABP_SABP_PDU_PR without _NOTHING *)
Definition E_SABP_SABP_PDU_PR : list (string * Z) :=
  [ ("SABP_SABP_PDU_PR_initiatingMessage", 1);
    ("SABP_SABP_PDU_PR_successfulOutcome", 2);
    ("SABP_SABP_PDU_PR_unsuccessfulOutcome", 3) ].
(* include/osmocom/ranap/iu_client.h:49-55 enum ranap_iu_event_type *)
Definition E_ranap_iu_event_type : list (string * Z) :=
  [ ("RANAP_IU_EVENT_RAB_ASSIGN", 0);
    ("RANAP_IU_EVENT_SECURITY_MODE_COMPLETE", 1);
    ("RANAP_IU_EVENT_IU_RELEASE", 2);
    ("RANAP_IU_EVENT_LINK_INVALIDATED", 3);
    ("RANAP_IU_EVENT_NEW_AREA", 4) ].
