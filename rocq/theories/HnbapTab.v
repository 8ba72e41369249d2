(* Generated by a script: the tables that asn1/utils/asn1tostruct.py reads from
   asn1/hnbap/HNBAP-PDU-Contents.asn with its regular expressions (lines 141-159), with
   the numbers of include/osmocom/hnbap/HNBAP_ProtocolIE-ID.h. *)
From Verif Require Import Base Aper Container HnbapTypes.
From Coq Require Import String.
Local Open Scope string_scope.

(* asn1/hnbap/HNBAP-PDU-Contents.asn:135-145 HNBRegisterRequestIEs *)
Definition M_HNBAP_HNBRegisterRequestIEs : msgdef := mkMsg "HNBAP_" "HNBRegisterRequestIEs" T_HNBAP_HNBRegisterRequest
  [ mkRow "id-HNB-Identity" 3 0 "HNB-Identity" T_HNBAP_HNB_Identity Mandatory;
    mkRow "id-HNB-Location-Information" 8 0 "HNB-Location-Information" T_HNBAP_HNB_Location_Information Mandatory;
    mkRow "id-PLMNidentity" 9 0 "PLMNidentity" T_HNBAP_PLMNidentity Mandatory;
    mkRow "id-CellIdentity" 11 0 "CellIdentity" T_HNBAP_CellIdentity Mandatory;
    mkRow "id-LAC" 6 0 "LAC" T_HNBAP_LAC Mandatory;
    mkRow "id-RAC" 7 0 "RAC" T_HNBAP_RAC Mandatory;
    mkRow "id-SAC" 10 0 "SAC" T_HNBAP_SAC Mandatory;
    mkRow "id-CSG-ID" 15 0 "CSG-ID" T_HNBAP_CSG_ID Optional ].
(* asn1/hnbap/HNBAP-PDU-Contents.asn:172-175 HNBRegisterAcceptIEs *)
Definition M_HNBAP_HNBRegisterAcceptIEs : msgdef := mkMsg "HNBAP_" "HNBRegisterAcceptIEs" T_HNBAP_HNBRegisterAccept
  [ mkRow "id-RNC-ID" 14 0 "RNC-ID" T_HNBAP_RNC_ID Mandatory ].
(* asn1/hnbap/HNBAP-PDU-Contents.asn:197-203 HNBRegisterRejectIEs *)
Definition M_HNBAP_HNBRegisterRejectIEs : msgdef := mkMsg "HNBAP_" "HNBRegisterRejectIEs" T_HNBAP_HNBRegisterReject
  [ mkRow "id-Cause" 1 1 "Cause" T_HNBAP_Cause Mandatory;
    mkRow "id-CriticalityDiagnostics" 2 1 "CriticalityDiagnostics" T_HNBAP_CriticalityDiagnostics Optional;
    mkRow "id-BackoffTimer" 16 0 "BackoffTimer" T_HNBAP_BackoffTimer Conditional ].
(* asn1/hnbap/HNBAP-PDU-Contents.asn:223-228 HNBDe-RegisterIEs *)
Definition M_HNBAP_HNBDe_RegisterIEs : msgdef := mkMsg "HNBAP_" "HNBDe-RegisterIEs" T_HNBAP_HNBDe_Register
  [ mkRow "id-Cause" 1 1 "Cause" T_HNBAP_Cause Mandatory;
    mkRow "id-BackoffTimer" 16 0 "BackoffTimer" T_HNBAP_BackoffTimer Conditional ].
(* asn1/hnbap/HNBAP-PDU-Contents.asn:247-252 UERegisterRequestIEs *)
Definition M_HNBAP_UERegisterRequestIEs : msgdef := mkMsg "HNBAP_" "UERegisterRequestIEs" T_HNBAP_UERegisterRequest
  [ mkRow "id-UE-Identity" 5 0 "UE-Identity" T_HNBAP_UE_Identity Mandatory;
    mkRow "id-Registration-Cause" 12 1 "Registration-Cause" T_HNBAP_Registration_Cause Mandatory;
    mkRow "id-UE-Capabilities" 13 0 "UE-Capabilities" T_HNBAP_UE_Capabilities Mandatory ].
(* asn1/hnbap/HNBAP-PDU-Contents.asn:270-274 UERegisterAcceptIEs *)
Definition M_HNBAP_UERegisterAcceptIEs : msgdef := mkMsg "HNBAP_" "UERegisterAcceptIEs" T_HNBAP_UERegisterAccept
  [ mkRow "id-UE-Identity" 5 0 "UE-Identity" T_HNBAP_UE_Identity Mandatory;
    mkRow "id-Context-ID" 4 0 "Context-ID" T_HNBAP_Context_ID Mandatory ].
(* asn1/hnbap/HNBAP-PDU-Contents.asn:294-299 UERegisterRejectIEs *)
Definition M_HNBAP_UERegisterRejectIEs : msgdef := mkMsg "HNBAP_" "UERegisterRejectIEs" T_HNBAP_UERegisterReject
  [ mkRow "id-UE-Identity" 5 0 "UE-Identity" T_HNBAP_UE_Identity Mandatory;
    mkRow "id-Cause" 1 1 "Cause" T_HNBAP_Cause Mandatory;
    mkRow "id-CriticalityDiagnostics" 2 1 "CriticalityDiagnostics" T_HNBAP_CriticalityDiagnostics Optional ].
(* asn1/hnbap/HNBAP-PDU-Contents.asn:318-322 UEDe-RegisterIEs *)
Definition M_HNBAP_UEDe_RegisterIEs : msgdef := mkMsg "HNBAP_" "UEDe-RegisterIEs" T_HNBAP_UEDe_Register
  [ mkRow "id-Context-ID" 4 0 "Context-ID" T_HNBAP_Context_ID Mandatory;
    mkRow "id-Cause" 1 1 "Cause" T_HNBAP_Cause Mandatory ].
(* asn1/hnbap/HNBAP-PDU-Contents.asn:340-344 CSGMembershipUpdateIEs *)
Definition M_HNBAP_CSGMembershipUpdateIEs : msgdef := mkMsg "HNBAP_" "CSGMembershipUpdateIEs" T_HNBAP_CSGMembershipUpdate
  [ mkRow "id-Context-ID" 4 0 "Context-ID" T_HNBAP_Context_ID Mandatory;
    mkRow "id-CSGMembershipStatus" 21 0 "CSGMembershipStatus" T_HNBAP_CSGMembershipStatus Mandatory ].
(* asn1/hnbap/HNBAP-PDU-Contents.asn:362-367 TNLUpdateRequestIEs *)
Definition M_HNBAP_TNLUpdateRequestIEs : msgdef := mkMsg "HNBAP_" "TNLUpdateRequestIEs" T_HNBAP_TNLUpdateRequest
  [ mkRow "id-Context-ID" 4 0 "Context-ID" T_HNBAP_Context_ID Mandatory;
    mkRow "id-RABList" 22 0 "RABList" T_HNBAP_RABList Mandatory;
    mkRow "id-Update-cause" 26 0 "Update-cause" T_HNBAP_Update_cause Mandatory ].
(* asn1/hnbap/HNBAP-PDU-Contents.asn:385-388 TNLUpdateResponseIEs *)
Definition M_HNBAP_TNLUpdateResponseIEs : msgdef := mkMsg "HNBAP_" "TNLUpdateResponseIEs" T_HNBAP_TNLUpdateResponse
  [ mkRow "id-Context-ID" 4 0 "Context-ID" T_HNBAP_Context_ID Mandatory ].
(* asn1/hnbap/HNBAP-PDU-Contents.asn:406-411 TNLUpdateFailureIEs *)
Definition M_HNBAP_TNLUpdateFailureIEs : msgdef := mkMsg "HNBAP_" "TNLUpdateFailureIEs" T_HNBAP_TNLUpdateFailure
  [ mkRow "id-Context-ID" 4 0 "Context-ID" T_HNBAP_Context_ID Mandatory;
    mkRow "id-Cause" 1 1 "Cause" T_HNBAP_Cause Mandatory;
    mkRow "id-CriticalityDiagnostics" 2 1 "CriticalityDiagnostics" T_HNBAP_CriticalityDiagnostics Optional ].
(* asn1/hnbap/HNBAP-PDU-Contents.asn:429-432 HNBConfigTransferRequestIEs *)
Definition M_HNBAP_HNBConfigTransferRequestIEs : msgdef := mkMsg "HNBAP_" "HNBConfigTransferRequestIEs" T_HNBAP_HNBConfigTransferRequest
  [ mkRow "id-NeighbourInfoRequestList" 28 0 "NeighbourInfoRequestList" T_HNBAP_NeighbourInfoRequestList Mandatory ].
(* asn1/hnbap/HNBAP-PDU-Contents.asn:450-453 HNBConfigTransferResponseIEs *)
Definition M_HNBAP_HNBConfigTransferResponseIEs : msgdef := mkMsg "HNBAP_" "HNBConfigTransferResponseIEs" T_HNBAP_HNBConfigTransferResponse
  [ mkRow "id-NeighbourInfoList" 27 0 "NeighbourInfoList" T_HNBAP_NeighbourInfoList Mandatory ].
(* asn1/hnbap/HNBAP-PDU-Contents.asn:472-475 RelocationCompleteIEs *)
Definition M_HNBAP_RelocationCompleteIEs : msgdef := mkMsg "HNBAP_" "RelocationCompleteIEs" T_HNBAP_RelocationComplete
  [ mkRow "id-Context-ID" 4 1 "Context-ID" T_HNBAP_Context_ID Mandatory ].
(* asn1/hnbap/HNBAP-PDU-Contents.asn:494-498 ErrorIndicationIEs *)
Definition M_HNBAP_ErrorIndicationIEs : msgdef := mkMsg "HNBAP_" "ErrorIndicationIEs" T_HNBAP_ErrorIndication
  [ mkRow "id-Cause" 1 1 "Cause" T_HNBAP_Cause Mandatory;
    mkRow "id-CriticalityDiagnostics" 2 1 "CriticalityDiagnostics" T_HNBAP_CriticalityDiagnostics Optional ].
(* asn1/hnbap/HNBAP-PDU-Contents.asn:531-534 U-RNTIQueryRequestIEs *)
Definition M_HNBAP_U_RNTIQueryRequestIEs : msgdef := mkMsg "HNBAP_" "U-RNTIQueryRequestIEs" T_HNBAP_U_RNTIQueryRequest
  [ mkRow "id-U-RNTI" 49 0 "U-RNTI" T_HNBAP_U_RNTI Mandatory ].
(* asn1/hnbap/HNBAP-PDU-Contents.asn:552-555 U-RNTIQueryResponseIEs *)
Definition M_HNBAP_U_RNTIQueryResponseIEs : msgdef := mkMsg "HNBAP_" "U-RNTIQueryResponseIEs" T_HNBAP_U_RNTIQueryResponse
  [ mkRow "id-HNB-GWResponse" 51 0 "HNB-GWResponse" T_HNBAP_HNB_GWResponse Mandatory ].

(* all object sets of asn1/hnbap/HNBAP-PDU-Contents.asn, each at the lines cited above *)
Definition hnbap_msgs : list msgdef :=
  [ M_HNBAP_HNBRegisterRequestIEs;
    M_HNBAP_HNBRegisterAcceptIEs;
    M_HNBAP_HNBRegisterRejectIEs;
    M_HNBAP_HNBDe_RegisterIEs;
    M_HNBAP_UERegisterRequestIEs;
    M_HNBAP_UERegisterAcceptIEs;
    M_HNBAP_UERegisterRejectIEs;
    M_HNBAP_UEDe_RegisterIEs;
    M_HNBAP_CSGMembershipUpdateIEs;
    M_HNBAP_TNLUpdateRequestIEs;
    M_HNBAP_TNLUpdateResponseIEs;
    M_HNBAP_TNLUpdateFailureIEs;
    M_HNBAP_HNBConfigTransferRequestIEs;
    M_HNBAP_HNBConfigTransferResponseIEs;
    M_HNBAP_RelocationCompleteIEs;
    M_HNBAP_ErrorIndicationIEs;
    M_HNBAP_U_RNTIQueryRequestIEs;
    M_HNBAP_U_RNTIQueryResponseIEs ].
