(* The switch statements of the RANAP receive paths: procedure code and the
   message type whose generated decoder or free function the case calls.
   Transcribed case by case; a procedure code without an entry takes the default
   branch.  The codes are those of asn1/ranap/RANAP-Constants.asn. *)
From Verif Require Import Base Aper Container RanapTab.

(* src/ranap_common_cn.c:34-98 cn_ranap_rx_initiating_msg_co (default: rc = -1) *)
Definition cn_ranap_rx_initiating_msg_co : list (N * msgdef) :=
  [ (19, M_RANAP_InitialUE_MessageIEs);
    (20, M_RANAP_DirectTransferIEs);
    (10, M_RANAP_RAB_ReleaseRequestIEs);
    (11, M_RANAP_Iu_ReleaseRequestIEs);
    (22, M_RANAP_ErrorIndicationIEs);
    (29, M_RANAP_RAB_ModifyRequestIEs);
    (6, M_RANAP_SecurityModeCommandIEs);
    (1, M_RANAP_Iu_ReleaseCommandIEs);
    (2, M_RANAP_RelocationRequiredIEs);
    (4, M_RANAP_RelocationCancelIEs);
    (24, M_RANAP_ForwardSRNS_ContextIEs);
    (18, M_RANAP_LocationReportIEs) ]%N.

(* src/ranap_common_cn.c:100-153 cn_ranap_free_initiating_msg_co *)
Definition cn_ranap_free_initiating_msg_co : list (N * msgdef) :=
  [ (19, M_RANAP_InitialUE_MessageIEs);
    (20, M_RANAP_DirectTransferIEs);
    (10, M_RANAP_RAB_ReleaseRequestIEs);
    (11, M_RANAP_Iu_ReleaseRequestIEs);
    (22, M_RANAP_ErrorIndicationIEs);
    (29, M_RANAP_RAB_ModifyRequestIEs);
    (6, M_RANAP_SecurityModeCommandIEs);
    (1, M_RANAP_Iu_ReleaseCommandIEs);
    (2, M_RANAP_RelocationRequiredIEs);
    (4, M_RANAP_RelocationCancelIEs);
    (24, M_RANAP_ForwardSRNS_ContextIEs);
    (18, M_RANAP_LocationReportIEs) ]%N.

(* src/ranap_common_cn.c:155-199 cn_ranap_rx_successful_msg_co (default: rc = -1) *)
Definition cn_ranap_rx_successful_msg_co : list (N * msgdef) :=
  [ (0, M_RANAP_RAB_AssignmentResponseIEs);
    (1, M_RANAP_Iu_ReleaseCompleteIEs);
    (3, M_RANAP_RelocationRequestAcknowledgeIEs);
    (5, M_RANAP_SRNS_ContextResponseIEs);
    (6, M_RANAP_SecurityModeCompleteIEs);
    (7, M_RANAP_DataVolumeReportIEs);
    (30, M_RANAP_LocationRelatedDataResponseIEs) ]%N.

(* src/ranap_common_cn.c:201-234 cn_ranap_free_successful_msg_co *)
Definition cn_ranap_free_successful_msg_co : list (N * msgdef) :=
  [ (0, M_RANAP_RAB_AssignmentResponseIEs);
    (1, M_RANAP_Iu_ReleaseCompleteIEs);
    (3, M_RANAP_RelocationRequestAcknowledgeIEs);
    (5, M_RANAP_SRNS_ContextResponseIEs);
    (6, M_RANAP_SecurityModeCompleteIEs);
    (7, M_RANAP_DataVolumeReportIEs);
    (30, M_RANAP_LocationRelatedDataResponseIEs) ]%N.

(* src/ranap_common_cn.c:236-260 cn_ranap_rx_outcome_msg_co (default: rc = -1) *)
Definition cn_ranap_rx_outcome_msg_co : list (N * msgdef) :=
  [ (0, M_RANAP_RAB_AssignmentResponseIEs) ]%N.

(* src/ranap_common_cn.c:262-275 cn_ranap_free_outcome_msg_co *)
Definition cn_ranap_free_outcome_msg_co : list (N * msgdef) :=
  [ (0, M_RANAP_RAB_AssignmentResponseIEs) ]%N.

(* src/ranap_common_cn.c:277-305 cn_ranap_rx_unsuccessful_msg_co (default: rc = -1) *)
Definition cn_ranap_rx_unsuccessful_msg_co : list (N * msgdef) :=
  [ (3, M_RANAP_RelocationFailureIEs);
    (6, M_RANAP_SecurityModeRejectIEs);
    (30, M_RANAP_LocationRelatedDataFailureIEs) ]%N.

(* src/ranap_common_cn.c:307-324 cn_ranap_free_unsuccessful_msg_co *)
Definition cn_ranap_free_unsuccessful_msg_co : list (N * msgdef) :=
  [ (3, M_RANAP_RelocationFailureIEs);
    (6, M_RANAP_SecurityModeRejectIEs);
    (30, M_RANAP_LocationRelatedDataFailureIEs) ]%N.

(* src/ranap_common_cn.c:429-474 cn_ranap_rx_initiating_msg_cl (default: rc = 0) *)
Definition cn_ranap_rx_initiating_msg_cl : list (N * msgdef) :=
  [ (9, M_RANAP_ResetIEs);
    (21, M_RANAP_OverloadIEs);
    (22, M_RANAP_ErrorIndicationIEs);
    (27, M_RANAP_ResetResourceIEs);
    (31, M_RANAP_InformationTransferIndicationIEs);
    (34, M_RANAP_DirectInformationTransferIEs);
    (33, M_RANAP_UplinkInformationExchangeRequestIEs);
    (14, M_RANAP_PagingIEs) ]%N.

(* src/ranap_common_cn.c:476-512 cn_ranap_free_initiating_msg_cl *)
Definition cn_ranap_free_initiating_msg_cl : list (N * msgdef) :=
  [ (9, M_RANAP_ResetIEs);
    (21, M_RANAP_OverloadIEs);
    (22, M_RANAP_ErrorIndicationIEs);
    (27, M_RANAP_ResetResourceIEs);
    (31, M_RANAP_InformationTransferIndicationIEs);
    (34, M_RANAP_DirectInformationTransferIEs);
    (33, M_RANAP_UplinkInformationExchangeRequestIEs);
    (14, M_RANAP_PagingIEs) ]%N.

(* src/ranap_common_cn.c:514-548 cn_ranap_rx_successful_msg_cl (default: rc = 0) *)
Definition cn_ranap_rx_successful_msg_cl : list (N * msgdef) :=
  [ (9, M_RANAP_ResetAcknowledgeIEs);
    (27, M_RANAP_ResetResourceAcknowledgeIEs);
    (31, M_RANAP_ResetResourceAcknowledgeIEs);
    (34, M_RANAP_InformationTransferConfirmationIEs);
    (33, M_RANAP_UplinkInformationExchangeResponseIEs) ]%N.

(* src/ranap_common_cn.c:550-574 cn_ranap_free_successful_msg_cl *)
Definition cn_ranap_free_successful_msg_cl : list (N * msgdef) :=
  [ (9, M_RANAP_ResetAcknowledgeIEs);
    (27, M_RANAP_ResetResourceAcknowledgeIEs);
    (31, M_RANAP_ResetResourceAcknowledgeIEs);
    (34, M_RANAP_InformationTransferConfirmationIEs);
    (33, M_RANAP_UplinkInformationExchangeResponseIEs) ]%N.

(* src/ranap_common_ran.c:36-100 ran_ranap_rx_initiating_msg_co (default: rc = -1) *)
Definition ran_ranap_rx_initiating_msg_co : list (N * msgdef) :=
  [ (0, M_RANAP_RAB_AssignmentRequestIEs);
    (20, M_RANAP_DirectTransferIEs);
    (22, M_RANAP_ErrorIndicationIEs);
    (1, M_RANAP_Iu_ReleaseCommandIEs);
    (3, M_RANAP_RelocationRequestIEs);
    (5, M_RANAP_SRNS_ContextRequestIEs);
    (23, M_RANAP_SRNS_DataForwardCommandIEs);
    (24, M_RANAP_ForwardSRNS_ContextIEs);
    (15, M_RANAP_CommonID_IEs);
    (16, M_RANAP_CN_InvokeTraceIEs);
    (6, M_RANAP_SecurityModeCommandIEs);
    (17, M_RANAP_LocationReportingControlIEs);
    (7, M_RANAP_DataVolumeReportRequestIEs);
    (26, M_RANAP_CN_DeactivateTraceIEs);
    (30, M_RANAP_LocationRelatedDataRequestIEs) ]%N.

(* src/ranap_common_ran.c:102-156 ran_ranap_free_initiating_msg_co *)
Definition ran_ranap_free_initiating_msg_co : list (N * msgdef) :=
  [ (0, M_RANAP_RAB_AssignmentRequestIEs);
    (20, M_RANAP_DirectTransferIEs);
    (22, M_RANAP_ErrorIndicationIEs);
    (1, M_RANAP_Iu_ReleaseCommandIEs);
    (3, M_RANAP_RelocationRequestIEs);
    (5, M_RANAP_SRNS_ContextRequestIEs);
    (23, M_RANAP_SRNS_DataForwardCommandIEs);
    (24, M_RANAP_ForwardSRNS_ContextIEs);
    (15, M_RANAP_CommonID_IEs);
    (16, M_RANAP_CN_InvokeTraceIEs);
    (6, M_RANAP_SecurityModeCommandIEs);
    (17, M_RANAP_LocationReportingControlIEs);
    (7, M_RANAP_DataVolumeReportRequestIEs);
    (26, M_RANAP_CN_DeactivateTraceIEs);
    (30, M_RANAP_LocationRelatedDataRequestIEs) ]%N.

(* src/ranap_common_ran.c:158-180 ran_ranap_rx_successful_msg_co (default: rc = -1) *)
Definition ran_ranap_rx_successful_msg_co : list (N * msgdef) :=
  [ (2, M_RANAP_RelocationCommandIEs) ]%N.

(* src/ranap_common_ran.c:182-194 ran_ranap_free_successful_msg_co *)
Definition ran_ranap_free_successful_msg_co : list (N * msgdef) :=
  [ (2, M_RANAP_RelocationCommandIEs) ]%N.

(* src/ranap_common_ran.c:196-219 ran_ranap_rx_unsuccessful_msg_co (default: rc = -1) *)
Definition ran_ranap_rx_unsuccessful_msg_co : list (N * msgdef) :=
  [ (2, M_RANAP_RelocationPreparationFailureIEs) ]%N.

(* src/ranap_common_ran.c:221-233 ran_ranap_free_unsuccessful_msg_co *)
Definition ran_ranap_free_unsuccessful_msg_co : list (N * msgdef) :=
  [ (2, M_RANAP_RelocationPreparationFailureIEs) ]%N.
