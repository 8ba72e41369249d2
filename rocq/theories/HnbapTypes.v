(* Generated by a script from the descriptors of src/hnbap/*.c: each definition
   is one asn_TYPE_descriptor_t with its member table and PER constraints.
   Optional components are marked true. *)
From Verif Require Import Base Aper.
From Coq Require Import String.
Local Open Scope Z_scope.

(* src/hnbap/HNBAP_Access-stratum-release-indicator.c:151-175 asn_DEF_HNBAP_Access_stratum_release_indicator *)
Definition T_HNBAP_Access_stratum_release_indicator : ty := TEnum true [0; 1; 2; 3; 4; 5] [].
(* src/hnbap/HNBAP_AccessResult.c:143-167 asn_DEF_HNBAP_AccessResult *)
Definition T_HNBAP_AccessResult : ty := TEnum true [0; 1] [].
(* src/hnbap/HNBAP_PLMNidentity.c:142-166 asn_DEF_HNBAP_PLMNidentity *)
Definition T_HNBAP_PLMNidentity : ty := TOcts (Some (mkCon false 3 3)).
(* src/hnbap/HNBAP_CellIdentity.c:147-171 asn_DEF_HNBAP_CellIdentity *)
Definition T_HNBAP_CellIdentity : ty := TBits (Some (mkCon false 28 28)).
(* src/hnbap/HNBAP_ProtocolIE-ID.c:141-165 asn_DEF_HNBAP_ProtocolIE_ID *)
Definition T_HNBAP_ProtocolIE_ID : ty := TInt (Some (mkCon false 0 65535)).
(* src/hnbap/HNBAP_Criticality.c:143-167 asn_DEF_HNBAP_Criticality *)
Definition T_HNBAP_Criticality : ty := TEnum false [0; 1; 2] [].
(* src/hnbap/HNBAP_IE.c:56-81 asn_DEF_HNBAP_IE *)
Definition T_HNBAP_IE : ty := TSeq false
    [(false, T_HNBAP_ProtocolIE_ID); (false, T_HNBAP_Criticality); (false, (TOcts None))]
    [].
(* src/hnbap/HNBAP_IE-Extensions.c:34-59 asn_DEF_HNBAP_IE_Extensions *)
Definition T_HNBAP_IE_Extensions : ty := TSeqOf (Some (mkCon false 1 65535)) T_HNBAP_IE.
(* src/hnbap/HNBAP_HNB-Cell-Identifier.c:58-83 asn_DEF_HNBAP_HNB_Cell_Identifier *)
Definition T_HNBAP_HNB_Cell_Identifier : ty := TSeq true
    [(false, T_HNBAP_PLMNidentity); (false, T_HNBAP_CellIdentity); (true, T_HNBAP_IE_Extensions)]
    [].
(* src/hnbap/HNBAP_HNB-RNL-Identity.c:39-62 asn_DEF_HNBAP_HNB_RNL_Identity *)
Definition T_HNBAP_HNB_RNL_Identity : ty := TChoice true
    [T_HNBAP_HNB_Cell_Identifier]
    [].
(* src/hnbap/HNBAP_PSC.c:147-171 asn_DEF_HNBAP_PSC *)
Definition T_HNBAP_PSC : ty := TBits (Some (mkCon false 9 9)).
(* src/hnbap/HNBAP_CSG-ID.c:147-171 asn_DEF_HNBAP_CSG_ID *)
Definition T_HNBAP_CSG_ID : ty := TBits (Some (mkCon false 27 27)).
(* src/hnbap/HNBAP_HNB-Cell-Access-Mode.c:145-169 asn_DEF_HNBAP_HNB_Cell_Access_Mode *)
Definition T_HNBAP_HNB_Cell_Access_Mode : ty := TEnum true [0; 1; 2] [].
(* src/hnbap/HNBAP_Ipv4Address.c:142-166 asn_DEF_HNBAP_Ipv4Address *)
Definition T_HNBAP_Ipv4Address : ty := TOcts (Some (mkCon false 4 4)).
(* src/hnbap/HNBAP_Ipv6Address.c:142-166 asn_DEF_HNBAP_Ipv6Address *)
Definition T_HNBAP_Ipv6Address : ty := TOcts (Some (mkCon false 16 16)).
(* src/hnbap/HNBAP_IP-Address.c:50-73 asn_DEF_ipaddress_2 *)
Definition T_HNBAP_IP_Address__ipaddress_2 : ty := TChoice true
    [T_HNBAP_Ipv4Address; T_HNBAP_Ipv6Address]
    [].
(* src/hnbap/HNBAP_IP-Address.c:113-138 asn_DEF_HNBAP_IP_Address *)
Definition T_HNBAP_IP_Address : ty := TSeq true
    [(false, T_HNBAP_IP_Address__ipaddress_2); (true, T_HNBAP_IE_Extensions)]
    [].
(* src/hnbap/HNBAP_Iurh-Signalling-TNL-AddressList.c:34-59 asn_DEF_HNBAP_Iurh_Signalling_TNL_AddressList *)
Definition T_HNBAP_Iurh_Signalling_TNL_AddressList : ty := TSeqOf (Some (mkCon false 1 3)) T_HNBAP_IP_Address.
(* src/hnbap/HNBAP_HNBConfigurationInformationProvided.c:78-103 asn_DEF_HNBAP_HNBConfigurationInformationProvided *)
Definition T_HNBAP_HNBConfigurationInformationProvided : ty := TSeq true
    [(true, T_HNBAP_PSC); (true, T_HNBAP_CSG_ID); (false, T_HNBAP_HNB_Cell_Access_Mode); (false, T_HNBAP_Iurh_Signalling_TNL_AddressList); (true, T_HNBAP_IE_Extensions)]
    [].
(* src/hnbap/HNBAP_CauseRadioNetwork.c:171-195 asn_DEF_HNBAP_CauseRadioNetwork *)
Definition T_HNBAP_CauseRadioNetwork : ty := TEnum true [0; 1; 2; 3; 4; 5; 6; 7; 8; 9; 10; 11; 12; 13] [14; 15].
(* src/hnbap/HNBAP_CauseTransport.c:143-167 asn_DEF_HNBAP_CauseTransport *)
Definition T_HNBAP_CauseTransport : ty := TEnum true [0; 1] [].
(* src/hnbap/HNBAP_CauseProtocol.c:153-177 asn_DEF_HNBAP_CauseProtocol *)
Definition T_HNBAP_CauseProtocol : ty := TEnum true [0; 1; 2; 3; 4; 5; 6] [].
(* src/hnbap/HNBAP_CauseMisc.c:147-171 asn_DEF_HNBAP_CauseMisc *)
Definition T_HNBAP_CauseMisc : ty := TEnum true [0; 1; 2; 3] [].
(* src/hnbap/HNBAP_Cause.c:69-92 asn_DEF_HNBAP_Cause *)
Definition T_HNBAP_Cause : ty := TChoice true
    [T_HNBAP_CauseRadioNetwork; T_HNBAP_CauseTransport; T_HNBAP_CauseProtocol; T_HNBAP_CauseMisc]
    [].
(* src/hnbap/HNBAP_HNBConfigurationInformationMissing.c:48-73 asn_DEF_HNBAP_HNBConfigurationInformationMissing *)
Definition T_HNBAP_HNBConfigurationInformationMissing : ty := TSeq true
    [(false, T_HNBAP_Cause); (true, T_HNBAP_IE_Extensions)]
    [].
(* src/hnbap/HNBAP_ConfigurationInformation.c:49-72 asn_DEF_HNBAP_ConfigurationInformation *)
Definition T_HNBAP_ConfigurationInformation : ty := TChoice true
    [T_HNBAP_HNBConfigurationInformationProvided; T_HNBAP_HNBConfigurationInformationMissing]
    [].
(* src/hnbap/HNBAP_HNBConfigInfo.c:58-83 asn_DEF_HNBAP_HNBConfigInfo *)
Definition T_HNBAP_HNBConfigInfo : ty := TSeq true
    [(false, T_HNBAP_HNB_RNL_Identity); (false, T_HNBAP_ConfigurationInformation); (true, T_HNBAP_IE_Extensions)]
    [].
(* src/hnbap/HNBAP_AdditionalNeighbourInfoList.c:34-59 asn_DEF_HNBAP_AdditionalNeighbourInfoList *)
Definition T_HNBAP_AdditionalNeighbourInfoList : ty := TSeqOf (Some (mkCon false 1 128)) T_HNBAP_HNBConfigInfo.
(* src/hnbap/HNBAP_AltitudeAndDirection.c:173-197 asn_DEF_directionOfAltitude_2 *)
Definition T_HNBAP_AltitudeAndDirection__directionOfAltitude_2 : ty := TEnum false [0; 1] [].
(* src/hnbap/HNBAP_AltitudeAndDirection.c:235-260 asn_DEF_HNBAP_AltitudeAndDirection *)
Definition T_HNBAP_AltitudeAndDirection : ty := TSeq true
    [(false, T_HNBAP_AltitudeAndDirection__directionOfAltitude_2); (false, (TInt (Some (mkCon false 0 32767))))]
    [].
(* src/hnbap/HNBAP_BackoffTimer.c:141-165 asn_DEF_HNBAP_BackoffTimer *)
Definition T_HNBAP_BackoffTimer : ty := TInt (Some (mkCon false 0 3600)).
(* src/hnbap/HNBAP_BindingID.c:142-166 asn_DEF_HNBAP_BindingID *)
Definition T_HNBAP_BindingID : ty := TOcts (Some (mkCon true 1 4)).
(* src/hnbap/HNBAP_CELL-FACHMobilitySupport.c:141-165 asn_DEF_HNBAP_CELL_FACHMobilitySupport *)
Definition T_HNBAP_CELL_FACHMobilitySupport : ty := TEnum true [0] [].
(* src/hnbap/HNBAP_LAC.c:142-166 asn_DEF_HNBAP_LAC *)
Definition T_HNBAP_LAC : ty := TOcts (Some (mkCon false 2 2)).
(* src/hnbap/HNBAP_CI.c:142-166 asn_DEF_HNBAP_CI *)
Definition T_HNBAP_CI : ty := TOcts (Some (mkCon false 2 2)).
(* src/hnbap/HNBAP_CGI.c:68-93 asn_DEF_HNBAP_CGI *)
Definition T_HNBAP_CGI : ty := TSeq false
    [(false, T_HNBAP_PLMNidentity); (false, T_HNBAP_LAC); (false, T_HNBAP_CI); (true, T_HNBAP_IE_Extensions)]
    [].
(* src/hnbap/HNBAP_CN-DomainIndicator.c:141-165 asn_DEF_HNBAP_CN_DomainIndicator *)
Definition T_HNBAP_CN_DomainIndicator : ty := TEnum false [0; 1] [].
(* src/hnbap/HNBAP_CSG-Capability.c:143-167 asn_DEF_HNBAP_CSG_Capability *)
Definition T_HNBAP_CSG_Capability : ty := TEnum true [0; 1] [].
(* src/hnbap/HNBAP_CSGMembershipStatus.c:143-167 asn_DEF_HNBAP_CSGMembershipStatus *)
Definition T_HNBAP_CSGMembershipStatus : ty := TEnum true [0; 1] [].
(* src/hnbap/HNBAP_CSGMembershipUpdate.c:67-92 asn_DEF_csgMembershipUpdate_ies_2 *)
Definition T_HNBAP_CSGMembershipUpdate__csgMembershipUpdate_ies_2 : ty := TSeqOf (Some (mkCon false 0 65535)) T_HNBAP_IE.
(* src/hnbap/HNBAP_CSGMembershipUpdate.c:120-145 asn_DEF_HNBAP_CSGMembershipUpdate *)
Definition T_HNBAP_CSGMembershipUpdate : ty := TSeq true
    [(false, T_HNBAP_CSGMembershipUpdate__csgMembershipUpdate_ies_2)]
    [].
(* src/hnbap/HNBAP_Context-ID.c:147-171 asn_DEF_HNBAP_Context_ID *)
Definition T_HNBAP_Context_ID : ty := TBits (Some (mkCon false 24 24)).
(* src/hnbap/HNBAP_TypeOfError.c:143-167 asn_DEF_HNBAP_TypeOfError *)
Definition T_HNBAP_TypeOfError : ty := TEnum true [0; 1] [].
(* src/hnbap/HNBAP_CriticalityDiagnostics-IE-List-Value.c:68-93 asn_DEF_HNBAP_CriticalityDiagnostics_IE_List_Value *)
Definition T_HNBAP_CriticalityDiagnostics_IE_List_Value : ty := TSeq true
    [(false, T_HNBAP_Criticality); (false, T_HNBAP_ProtocolIE_ID); (false, T_HNBAP_TypeOfError); (true, T_HNBAP_IE_Extensions)]
    [].
(* src/hnbap/HNBAP_CriticalityDiagnostics-IE-List.c:34-59 asn_DEF_HNBAP_CriticalityDiagnostics_IE_List *)
Definition T_HNBAP_CriticalityDiagnostics_IE_List : ty := TSeqOf (Some (mkCon false 1 256)) T_HNBAP_CriticalityDiagnostics_IE_List_Value.
(* src/hnbap/HNBAP_ProcedureCode.c:141-165 asn_DEF_HNBAP_ProcedureCode *)
Definition T_HNBAP_ProcedureCode : ty := TInt (Some (mkCon false 0 255)).
(* src/hnbap/HNBAP_TriggeringMessage.c:143-167 asn_DEF_HNBAP_TriggeringMessage *)
Definition T_HNBAP_TriggeringMessage : ty := TEnum false [0; 1; 2] [].
(* src/hnbap/HNBAP_CriticalityDiagnostics.c:78-103 asn_DEF_HNBAP_CriticalityDiagnostics *)
Definition T_HNBAP_CriticalityDiagnostics : ty := TSeq true
    [(true, T_HNBAP_ProcedureCode); (true, T_HNBAP_TriggeringMessage); (true, T_HNBAP_Criticality); (true, T_HNBAP_CriticalityDiagnostics_IE_List); (true, T_HNBAP_IE_Extensions)]
    [].
(* src/hnbap/HNBAP_ESN.c:147-171 asn_DEF_HNBAP_ESN *)
Definition T_HNBAP_ESN : ty := TBits (Some (mkCon false 32 32)).
(* src/hnbap/HNBAP_ErrorIndication.c:67-92 asn_DEF_errorIndication_ies_2 *)
Definition T_HNBAP_ErrorIndication__errorIndication_ies_2 : ty := TSeqOf (Some (mkCon false 0 65535)) T_HNBAP_IE.
(* src/hnbap/HNBAP_ErrorIndication.c:120-145 asn_DEF_HNBAP_ErrorIndication *)
Definition T_HNBAP_ErrorIndication : ty := TSeq true
    [(false, T_HNBAP_ErrorIndication__errorIndication_ies_2)]
    [].
(* src/hnbap/HNBAP_GTP-TEI.c:142-166 asn_DEF_HNBAP_GTP_TEI *)
Definition T_HNBAP_GTP_TEI : ty := TOcts (Some (mkCon false 4 4)).
(* src/hnbap/HNBAP_GeographicalCoordinates.c:203-227 asn_DEF_latitudeSign_2 *)
Definition T_HNBAP_GeographicalCoordinates__latitudeSign_2 : ty := TEnum false [0; 1] [].
(* src/hnbap/HNBAP_GeographicalCoordinates.c:287-312 asn_DEF_HNBAP_GeographicalCoordinates *)
Definition T_HNBAP_GeographicalCoordinates : ty := TSeq true
    [(false, T_HNBAP_GeographicalCoordinates__latitudeSign_2); (false, (TInt (Some (mkCon false 0 8388607)))); (false, (TInt (Some (mkCon false (-8388608) 8388607)))); (true, T_HNBAP_IE_Extensions)]
    [].
(* src/hnbap/HNBAP_GeographicalLocation.c:58-83 asn_DEF_HNBAP_GeographicalLocation *)
Definition T_HNBAP_GeographicalLocation : ty := TSeq true
    [(false, T_HNBAP_GeographicalCoordinates); (false, T_HNBAP_AltitudeAndDirection); (true, T_HNBAP_IE_Extensions)]
    [].
(* src/hnbap/HNBAP_RNC-ID.c:141-165 asn_DEF_HNBAP_RNC_ID *)
Definition T_HNBAP_RNC_ID : ty := TInt (Some (mkCon false 0 65535)).
(* src/hnbap/HNBAP_UnknownU-RNTIIndication.c:141-165 asn_DEF_HNBAP_UnknownU_RNTIIndication *)
Definition T_HNBAP_UnknownU_RNTIIndication : ty := TEnum true [0] [].
(* src/hnbap/HNBAP_HNB-GWResponse.c:59-82 asn_DEF_HNBAP_HNB_GWResponse *)
Definition T_HNBAP_HNB_GWResponse : ty := TChoice true
    [T_HNBAP_HNBConfigInfo; T_HNBAP_RNC_ID; T_HNBAP_UnknownU_RNTIIndication]
    [].
(* src/hnbap/HNBAP_HNB-Identity-Info.c:142-166 asn_DEF_HNBAP_HNB_Identity_Info *)
Definition T_HNBAP_HNB_Identity_Info : ty := TOcts (Some (mkCon false 1 255)).
(* src/hnbap/HNBAP_HNB-Identity.c:48-73 asn_DEF_HNBAP_HNB_Identity *)
Definition T_HNBAP_HNB_Identity : ty := TSeq true
    [(false, T_HNBAP_HNB_Identity_Info); (true, T_HNBAP_IE_Extensions)]
    [].
(* src/hnbap/HNBAP_RAC.c:142-166 asn_DEF_HNBAP_RAC *)
Definition T_HNBAP_RAC : ty := TOcts (Some (mkCon false 1 1)).
(* src/hnbap/HNBAP_UTRANCellID.c:78-103 asn_DEF_HNBAP_UTRANCellID *)
Definition T_HNBAP_UTRANCellID : ty := TSeq false
    [(false, T_HNBAP_LAC); (false, T_HNBAP_RAC); (false, T_HNBAP_PLMNidentity); (false, T_HNBAP_CellIdentity); (true, T_HNBAP_IE_Extensions)]
    [].
(* src/hnbap/HNBAP_MacroCellID.c:49-72 asn_DEF_HNBAP_MacroCellID *)
Definition T_HNBAP_MacroCellID : ty := TChoice true
    [T_HNBAP_UTRANCellID; T_HNBAP_CGI]
    [].
(* src/hnbap/HNBAP_MacroCoverageInformation.c:48-73 asn_DEF_HNBAP_MacroCoverageInformation *)
Definition T_HNBAP_MacroCoverageInformation : ty := TSeq true
    [(false, T_HNBAP_MacroCellID); (true, T_HNBAP_IE_Extensions)]
    [].
(* src/hnbap/HNBAP_HNB-Location-Information.c:58-83 asn_DEF_HNBAP_HNB_Location_Information *)
Definition T_HNBAP_HNB_Location_Information : ty := TSeq true
    [(true, T_HNBAP_MacroCoverageInformation); (true, T_HNBAP_GeographicalLocation); (true, T_HNBAP_IE_Extensions)]
    [].
(* src/hnbap/HNBAP_InitiatingMessage.c:56-81 asn_DEF_HNBAP_InitiatingMessage *)
Definition T_HNBAP_InitiatingMessage : ty := TSeq false
    [(false, T_HNBAP_ProcedureCode); (false, T_HNBAP_Criticality); (false, (TOcts None))]
    [].
(* src/hnbap/HNBAP_SuccessfulOutcome.c:56-81 asn_DEF_HNBAP_SuccessfulOutcome *)
Definition T_HNBAP_SuccessfulOutcome : ty := TSeq false
    [(false, T_HNBAP_ProcedureCode); (false, T_HNBAP_Criticality); (false, (TOcts None))]
    [].
(* src/hnbap/HNBAP_UnsuccessfulOutcome.c:56-81 asn_DEF_HNBAP_UnsuccessfulOutcome *)
Definition T_HNBAP_UnsuccessfulOutcome : ty := TSeq false
    [(false, T_HNBAP_ProcedureCode); (false, T_HNBAP_Criticality); (false, (TOcts None))]
    [].
(* src/hnbap/HNBAP_HNBAP-PDU.c:59-82 asn_DEF_HNBAP_HNBAP_PDU *)
Definition T_HNBAP_HNBAP_PDU : ty := TChoice true
    [T_HNBAP_InitiatingMessage; T_HNBAP_SuccessfulOutcome; T_HNBAP_UnsuccessfulOutcome]
    [].
(* src/hnbap/HNBAP_HNBCapacity.c:141-165 asn_DEF_HNBAP_HNBCapacity *)
Definition T_HNBAP_HNBCapacity : ty := TInt (Some (mkCon false 0 1000)).
(* src/hnbap/HNBAP_HNBConfigTransferRequest.c:67-92 asn_DEF_hnbConfigTransferRequest_ies_2 *)
Definition T_HNBAP_HNBConfigTransferRequest__hnbConfigTransferRequest_ies_2 : ty := TSeqOf (Some (mkCon false 0 65535)) T_HNBAP_IE.
(* src/hnbap/HNBAP_HNBConfigTransferRequest.c:120-145 asn_DEF_HNBAP_HNBConfigTransferRequest *)
Definition T_HNBAP_HNBConfigTransferRequest : ty := TSeq true
    [(false, T_HNBAP_HNBConfigTransferRequest__hnbConfigTransferRequest_ies_2)]
    [].
(* src/hnbap/HNBAP_HNBConfigTransferResponse.c:67-92 asn_DEF_hnbConfigTransferResponse_ies_2 *)
Definition T_HNBAP_HNBConfigTransferResponse__hnbConfigTransferResponse_ies_2 : ty := TSeqOf (Some (mkCon false 0 65535)) T_HNBAP_IE.
(* src/hnbap/HNBAP_HNBConfigTransferResponse.c:120-145 asn_DEF_HNBAP_HNBConfigTransferResponse *)
Definition T_HNBAP_HNBConfigTransferResponse : ty := TSeq true
    [(false, T_HNBAP_HNBConfigTransferResponse__hnbConfigTransferResponse_ies_2)]
    [].
(* src/hnbap/HNBAP_HNBDe-Register.c:67-92 asn_DEF_hnbDe_Register_ies_2 *)
Definition T_HNBAP_HNBDe_Register__hnbDe_Register_ies_2 : ty := TSeqOf (Some (mkCon false 0 65535)) T_HNBAP_IE.
(* src/hnbap/HNBAP_HNBDe-Register.c:120-145 asn_DEF_HNBAP_HNBDe_Register *)
Definition T_HNBAP_HNBDe_Register : ty := TSeq true
    [(false, T_HNBAP_HNBDe_Register__hnbDe_Register_ies_2)]
    [].
(* src/hnbap/HNBAP_HNBRegisterAccept.c:67-92 asn_DEF_hnbRegisterAccept_ies_2 *)
Definition T_HNBAP_HNBRegisterAccept__hnbRegisterAccept_ies_2 : ty := TSeqOf (Some (mkCon false 0 65535)) T_HNBAP_IE.
(* src/hnbap/HNBAP_HNBRegisterAccept.c:120-145 asn_DEF_HNBAP_HNBRegisterAccept *)
Definition T_HNBAP_HNBRegisterAccept : ty := TSeq true
    [(false, T_HNBAP_HNBRegisterAccept__hnbRegisterAccept_ies_2)]
    [].
(* src/hnbap/HNBAP_HNBRegisterReject.c:67-92 asn_DEF_hnbRegisterReject_ies_2 *)
Definition T_HNBAP_HNBRegisterReject__hnbRegisterReject_ies_2 : ty := TSeqOf (Some (mkCon false 0 65535)) T_HNBAP_IE.
(* src/hnbap/HNBAP_HNBRegisterReject.c:120-145 asn_DEF_HNBAP_HNBRegisterReject *)
Definition T_HNBAP_HNBRegisterReject : ty := TSeq true
    [(false, T_HNBAP_HNBRegisterReject__hnbRegisterReject_ies_2)]
    [].
(* src/hnbap/HNBAP_HNBRegisterRequest.c:67-92 asn_DEF_hnbRegisterRequest_ies_2 *)
Definition T_HNBAP_HNBRegisterRequest__hnbRegisterRequest_ies_2 : ty := TSeqOf (Some (mkCon false 0 65535)) T_HNBAP_IE.
(* src/hnbap/HNBAP_HNBRegisterRequest.c:120-145 asn_DEF_HNBAP_HNBRegisterRequest *)
Definition T_HNBAP_HNBRegisterRequest : ty := TSeq true
    [(false, T_HNBAP_HNBRegisterRequest__hnbRegisterRequest_ies_2)]
    [].
(* src/hnbap/HNBAP_IMEI.c:147-171 asn_DEF_HNBAP_IMEI *)
Definition T_HNBAP_IMEI : ty := TBits (Some (mkCon false 60 60)).
(* src/hnbap/HNBAP_IMSI.c:142-166 asn_DEF_HNBAP_IMSI *)
Definition T_HNBAP_IMSI : ty := TOcts (Some (mkCon false 3 8)).
(* src/hnbap/HNBAP_IMSIDS41.c:142-166 asn_DEF_HNBAP_IMSIDS41 *)
Definition T_HNBAP_IMSIDS41 : ty := TOcts (Some (mkCon false 5 7)).
(* src/hnbap/HNBAP_IMSIESN.c:46-71 asn_DEF_HNBAP_IMSIESN *)
Definition T_HNBAP_IMSIESN : ty := TSeq false
    [(false, T_HNBAP_IMSIDS41); (false, T_HNBAP_ESN)]
    [].
(* src/hnbap/HNBAP_LAI.c:46-71 asn_DEF_HNBAP_LAI *)
Definition T_HNBAP_LAI : ty := TSeq true
    [(false, T_HNBAP_PLMNidentity); (false, T_HNBAP_LAC)]
    [].
(* src/hnbap/HNBAP_MuxPortNumber.c:141-165 asn_DEF_HNBAP_MuxPortNumber *)
Definition T_HNBAP_MuxPortNumber : ty := TInt (Some (mkCon false 1024 65535)).
(* src/hnbap/HNBAP_NeighbourIdentity.c:49-72 asn_DEF_HNBAP_NeighbourIdentity *)
Definition T_HNBAP_NeighbourIdentity : ty := TChoice true
    [T_HNBAP_HNB_RNL_Identity; T_HNBAP_CellIdentity]
    [].
(* src/hnbap/HNBAP_NeighbourCellIdentityList.c:34-59 asn_DEF_HNBAP_NeighbourCellIdentityList *)
Definition T_HNBAP_NeighbourCellIdentityList : ty := TSeqOf (Some (mkCon false 0 128)) T_HNBAP_NeighbourIdentity.
(* src/hnbap/HNBAP_NeighbourInfoList.c:34-59 asn_DEF_HNBAP_NeighbourInfoList *)
Definition T_HNBAP_NeighbourInfoList : ty := TSeqOf (Some (mkCon false 1 32)) T_HNBAP_HNBConfigInfo.
(* src/hnbap/HNBAP_NeighbourInfoRequestItem.c:48-73 asn_DEF_HNBAP_NeighbourInfoRequestItem *)
Definition T_HNBAP_NeighbourInfoRequestItem : ty := TSeq true
    [(false, T_HNBAP_HNB_RNL_Identity); (true, T_HNBAP_IE_Extensions)]
    [].
(* src/hnbap/HNBAP_NeighbourInfoRequestList.c:34-59 asn_DEF_HNBAP_NeighbourInfoRequestList *)
Definition T_HNBAP_NeighbourInfoRequestList : ty := TSeqOf (Some (mkCon false 1 32)) T_HNBAP_NeighbourInfoRequestItem.
(* src/hnbap/HNBAP_PTMSI.c:147-171 asn_DEF_HNBAP_PTMSI *)
Definition T_HNBAP_PTMSI : ty := TBits (Some (mkCon false 32 32)).
(* src/hnbap/HNBAP_RAI.c:46-71 asn_DEF_HNBAP_RAI *)
Definition T_HNBAP_RAI : ty := TSeq true
    [(false, T_HNBAP_LAI); (false, T_HNBAP_RAC)]
    [].
(* src/hnbap/HNBAP_PTMSIRAI.c:46-71 asn_DEF_HNBAP_PTMSIRAI *)
Definition T_HNBAP_PTMSIRAI : ty := TSeq true
    [(false, T_HNBAP_PTMSI); (false, T_HNBAP_RAI)]
    [].
(* src/hnbap/HNBAP_Presence.c:143-167 asn_DEF_HNBAP_Presence *)
Definition T_HNBAP_Presence : ty := TEnum false [0; 1; 2] [].
(* src/hnbap/HNBAP_PrivateIE-ID.c:79-102 asn_DEF_HNBAP_PrivateIE_ID *)
Definition T_HNBAP_PrivateIE_ID : ty := TChoice false
    [(TInt (Some (mkCon false 0 65535))); (TOcts None)]
    [].
(* src/hnbap/HNBAP_PrivateMessage.c:67-92 asn_DEF_privateMessage_ies_2 *)
Definition T_HNBAP_PrivateMessage__privateMessage_ies_2 : ty := TSeqOf (Some (mkCon false 0 65535)) T_HNBAP_IE.
(* src/hnbap/HNBAP_PrivateMessage.c:120-145 asn_DEF_HNBAP_PrivateMessage *)
Definition T_HNBAP_PrivateMessage : ty := TSeq true
    [(false, T_HNBAP_PrivateMessage__privateMessage_ies_2)]
    [].
(* src/hnbap/HNBAP_RAB-ID.c:147-171 asn_DEF_HNBAP_RAB_ID *)
Definition T_HNBAP_RAB_ID : ty := TBits (Some (mkCon false 8 8)).
(* src/hnbap/HNBAP_TransportLayerAddress.c:147-171 asn_DEF_HNBAP_TransportLayerAddress *)
Definition T_HNBAP_TransportLayerAddress : ty := TBits (Some (mkCon true 1 160)).
(* src/hnbap/HNBAP_TransportInfo.c:50-73 asn_DEF_transportAssociation_3 *)
Definition T_HNBAP_TransportInfo__transportAssociation_3 : ty := TChoice true
    [T_HNBAP_GTP_TEI; T_HNBAP_BindingID]
    [].
(* src/hnbap/HNBAP_TransportInfo.c:123-148 asn_DEF_HNBAP_TransportInfo *)
Definition T_HNBAP_TransportInfo : ty := TSeq true
    [(false, T_HNBAP_TransportLayerAddress); (false, T_HNBAP_TransportInfo__transportAssociation_3); (true, T_HNBAP_IE_Extensions)]
    [].
(* src/hnbap/HNBAP_RABListItem.c:78-103 asn_DEF_HNBAP_RABListItem *)
Definition T_HNBAP_RABListItem : ty := TSeq true
    [(false, T_HNBAP_RAB_ID); (false, T_HNBAP_TransportInfo); (false, T_HNBAP_TransportInfo); (false, T_HNBAP_CN_DomainIndicator); (true, T_HNBAP_IE_Extensions)]
    [].
(* src/hnbap/HNBAP_RABList.c:34-59 asn_DEF_HNBAP_RABList *)
Definition T_HNBAP_RABList : ty := TSeqOf (Some (mkCon false 1 256)) T_HNBAP_RABListItem.
(* src/hnbap/HNBAP_Registration-Cause.c:145-169 asn_DEF_HNBAP_Registration_Cause *)
Definition T_HNBAP_Registration_Cause : ty := TEnum true [0; 1] [2].
(* src/hnbap/HNBAP_RelocationComplete.c:67-92 asn_DEF_relocationComplete_ies_2 *)
Definition T_HNBAP_RelocationComplete__relocationComplete_ies_2 : ty := TSeqOf (Some (mkCon false 0 65535)) T_HNBAP_IE.
(* src/hnbap/HNBAP_RelocationComplete.c:120-145 asn_DEF_HNBAP_RelocationComplete *)
Definition T_HNBAP_RelocationComplete : ty := TSeq true
    [(false, T_HNBAP_RelocationComplete__relocationComplete_ies_2)]
    [].
(* src/hnbap/HNBAP_S-RNTIPrefix.c:147-171 asn_DEF_HNBAP_S_RNTIPrefix *)
Definition T_HNBAP_S_RNTIPrefix : ty := TBits (Some (mkCon true 1 16)).
(* src/hnbap/HNBAP_SAC.c:142-166 asn_DEF_HNBAP_SAC *)
Definition T_HNBAP_SAC : ty := TOcts (Some (mkCon false 2 2)).
(* src/hnbap/HNBAP_TMSIDS41.c:142-166 asn_DEF_HNBAP_TMSIDS41 *)
Definition T_HNBAP_TMSIDS41 : ty := TOcts (Some (mkCon false 2 17)).
(* src/hnbap/HNBAP_TMSILAI.c:82-107 asn_DEF_HNBAP_TMSILAI *)
Definition T_HNBAP_TMSILAI : ty := TSeq false
    [(false, (TBits (Some (mkCon false 32 32)))); (false, T_HNBAP_LAI)]
    [].
(* src/hnbap/HNBAP_TNLUpdateFailure.c:67-92 asn_DEF_tnlUpdateFailure_ies_2 *)
Definition T_HNBAP_TNLUpdateFailure__tnlUpdateFailure_ies_2 : ty := TSeqOf (Some (mkCon false 0 65535)) T_HNBAP_IE.
(* src/hnbap/HNBAP_TNLUpdateFailure.c:120-145 asn_DEF_HNBAP_TNLUpdateFailure *)
Definition T_HNBAP_TNLUpdateFailure : ty := TSeq true
    [(false, T_HNBAP_TNLUpdateFailure__tnlUpdateFailure_ies_2)]
    [].
(* src/hnbap/HNBAP_TNLUpdateRequest.c:67-92 asn_DEF_tnlUpdateRequest_ies_2 *)
Definition T_HNBAP_TNLUpdateRequest__tnlUpdateRequest_ies_2 : ty := TSeqOf (Some (mkCon false 0 65535)) T_HNBAP_IE.
(* src/hnbap/HNBAP_TNLUpdateRequest.c:120-145 asn_DEF_HNBAP_TNLUpdateRequest *)
Definition T_HNBAP_TNLUpdateRequest : ty := TSeq true
    [(false, T_HNBAP_TNLUpdateRequest__tnlUpdateRequest_ies_2)]
    [].
(* src/hnbap/HNBAP_TNLUpdateResponse.c:67-92 asn_DEF_tnlUpdateResponse_ies_2 *)
Definition T_HNBAP_TNLUpdateResponse__tnlUpdateResponse_ies_2 : ty := TSeqOf (Some (mkCon false 0 65535)) T_HNBAP_IE.
(* src/hnbap/HNBAP_TNLUpdateResponse.c:120-145 asn_DEF_HNBAP_TNLUpdateResponse *)
Definition T_HNBAP_TNLUpdateResponse : ty := TSeq true
    [(false, T_HNBAP_TNLUpdateResponse__tnlUpdateResponse_ies_2)]
    [].
(* src/hnbap/HNBAP_UDP-Port-Number.c:142-166 asn_DEF_HNBAP_UDP_Port_Number *)
Definition T_HNBAP_UDP_Port_Number : ty := TOcts (Some (mkCon false 2 2)).
(* src/hnbap/HNBAP_Tunnel-Information.c:58-83 asn_DEF_HNBAP_Tunnel_Information *)
Definition T_HNBAP_Tunnel_Information : ty := TSeq true
    [(false, T_HNBAP_IP_Address); (true, T_HNBAP_UDP_Port_Number); (true, T_HNBAP_IE_Extensions)]
    [].
(* src/hnbap/HNBAP_U-RNTI.c:147-171 asn_DEF_HNBAP_U_RNTI *)
Definition T_HNBAP_U_RNTI : ty := TBits (Some (mkCon false 32 32)).
(* src/hnbap/HNBAP_U-RNTIQueryRequest.c:67-92 asn_DEF_u_RNTIQueryRequest_ies_2 *)
Definition T_HNBAP_U_RNTIQueryRequest__u_RNTIQueryRequest_ies_2 : ty := TSeqOf (Some (mkCon false 0 65535)) T_HNBAP_IE.
(* src/hnbap/HNBAP_U-RNTIQueryRequest.c:120-145 asn_DEF_HNBAP_U_RNTIQueryRequest *)
Definition T_HNBAP_U_RNTIQueryRequest : ty := TSeq true
    [(false, T_HNBAP_U_RNTIQueryRequest__u_RNTIQueryRequest_ies_2)]
    [].
(* src/hnbap/HNBAP_U-RNTIQueryResponse.c:67-92 asn_DEF_u_RNTIQueryResponse_ies_2 *)
Definition T_HNBAP_U_RNTIQueryResponse__u_RNTIQueryResponse_ies_2 : ty := TSeqOf (Some (mkCon false 0 65535)) T_HNBAP_IE.
(* src/hnbap/HNBAP_U-RNTIQueryResponse.c:120-145 asn_DEF_HNBAP_U_RNTIQueryResponse *)
Definition T_HNBAP_U_RNTIQueryResponse : ty := TSeq true
    [(false, T_HNBAP_U_RNTIQueryResponse__u_RNTIQueryResponse_ies_2)]
    [].
(* src/hnbap/HNBAP_UE-Capabilities.c:58-83 asn_DEF_HNBAP_UE_Capabilities *)
Definition T_HNBAP_UE_Capabilities : ty := TSeq true
    [(false, T_HNBAP_Access_stratum_release_indicator); (false, T_HNBAP_CSG_Capability); (true, T_HNBAP_IE_Extensions)]
    [].
(* src/hnbap/HNBAP_UE-Identity.c:109-132 asn_DEF_HNBAP_UE_Identity *)
Definition T_HNBAP_UE_Identity : ty := TChoice true
    [T_HNBAP_IMSI; T_HNBAP_TMSILAI; T_HNBAP_PTMSIRAI; T_HNBAP_IMEI; T_HNBAP_ESN; T_HNBAP_IMSIDS41; T_HNBAP_IMSIESN; T_HNBAP_TMSIDS41]
    [].
(* src/hnbap/HNBAP_UEDe-Register.c:67-92 asn_DEF_ueDe_Register_ies_2 *)
Definition T_HNBAP_UEDe_Register__ueDe_Register_ies_2 : ty := TSeqOf (Some (mkCon false 0 65535)) T_HNBAP_IE.
(* src/hnbap/HNBAP_UEDe-Register.c:120-145 asn_DEF_HNBAP_UEDe_Register *)
Definition T_HNBAP_UEDe_Register : ty := TSeq true
    [(false, T_HNBAP_UEDe_Register__ueDe_Register_ies_2)]
    [].
(* src/hnbap/HNBAP_UERegisterAccept.c:67-92 asn_DEF_ueRegisterAccept_ies_2 *)
Definition T_HNBAP_UERegisterAccept__ueRegisterAccept_ies_2 : ty := TSeqOf (Some (mkCon false 0 65535)) T_HNBAP_IE.
(* src/hnbap/HNBAP_UERegisterAccept.c:120-145 asn_DEF_HNBAP_UERegisterAccept *)
Definition T_HNBAP_UERegisterAccept : ty := TSeq true
    [(false, T_HNBAP_UERegisterAccept__ueRegisterAccept_ies_2)]
    [].
(* src/hnbap/HNBAP_UERegisterReject.c:67-92 asn_DEF_ueRegisterReject_ies_2 *)
Definition T_HNBAP_UERegisterReject__ueRegisterReject_ies_2 : ty := TSeqOf (Some (mkCon false 0 65535)) T_HNBAP_IE.
(* src/hnbap/HNBAP_UERegisterReject.c:120-145 asn_DEF_HNBAP_UERegisterReject *)
Definition T_HNBAP_UERegisterReject : ty := TSeq true
    [(false, T_HNBAP_UERegisterReject__ueRegisterReject_ies_2)]
    [].
(* src/hnbap/HNBAP_UERegisterRequest.c:67-92 asn_DEF_ueRegisterRequest_ies_2 *)
Definition T_HNBAP_UERegisterRequest__ueRegisterRequest_ies_2 : ty := TSeqOf (Some (mkCon false 0 65535)) T_HNBAP_IE.
(* src/hnbap/HNBAP_UERegisterRequest.c:120-145 asn_DEF_HNBAP_UERegisterRequest *)
Definition T_HNBAP_UERegisterRequest : ty := TSeq true
    [(false, T_HNBAP_UERegisterRequest__ueRegisterRequest_ies_2)]
    [].
(* src/hnbap/HNBAP_URAIdentity.c:141-165 asn_DEF_HNBAP_URAIdentity *)
Definition T_HNBAP_URAIdentity : ty := TInt (Some (mkCon false 0 65535)).
(* src/hnbap/HNBAP_URAIdentityList.c:34-59 asn_DEF_HNBAP_URAIdentityList *)
Definition T_HNBAP_URAIdentityList : ty := TSeqOf (Some (mkCon false 0 8)) T_HNBAP_URAIdentity.
(* src/hnbap/HNBAP_Update-cause.c:141-165 asn_DEF_HNBAP_Update_cause *)
Definition T_HNBAP_Update_cause : ty := TEnum true [0] [].

Local Open Scope string_scope.
(* all descriptors of src/hnbap, each at the lines cited above *)
Definition hnbap_types : list (string * ty) :=
  [ ("HNBAP_Access_stratum_release_indicator", T_HNBAP_Access_stratum_release_indicator);
    ("HNBAP_AccessResult", T_HNBAP_AccessResult);
    ("HNBAP_PLMNidentity", T_HNBAP_PLMNidentity);
    ("HNBAP_CellIdentity", T_HNBAP_CellIdentity);
    ("HNBAP_ProtocolIE_ID", T_HNBAP_ProtocolIE_ID);
    ("HNBAP_Criticality", T_HNBAP_Criticality);
    ("HNBAP_IE", T_HNBAP_IE);
    ("HNBAP_IE_Extensions", T_HNBAP_IE_Extensions);
    ("HNBAP_HNB_Cell_Identifier", T_HNBAP_HNB_Cell_Identifier);
    ("HNBAP_HNB_RNL_Identity", T_HNBAP_HNB_RNL_Identity);
    ("HNBAP_PSC", T_HNBAP_PSC);
    ("HNBAP_CSG_ID", T_HNBAP_CSG_ID);
    ("HNBAP_HNB_Cell_Access_Mode", T_HNBAP_HNB_Cell_Access_Mode);
    ("HNBAP_Ipv4Address", T_HNBAP_Ipv4Address);
    ("HNBAP_Ipv6Address", T_HNBAP_Ipv6Address);
    ("HNBAP_IP_Address__ipaddress_2", T_HNBAP_IP_Address__ipaddress_2);
    ("HNBAP_IP_Address", T_HNBAP_IP_Address);
    ("HNBAP_Iurh_Signalling_TNL_AddressList", T_HNBAP_Iurh_Signalling_TNL_AddressList);
    ("HNBAP_HNBConfigurationInformationProvided", T_HNBAP_HNBConfigurationInformationProvided);
    ("HNBAP_CauseRadioNetwork", T_HNBAP_CauseRadioNetwork);
    ("HNBAP_CauseTransport", T_HNBAP_CauseTransport);
    ("HNBAP_CauseProtocol", T_HNBAP_CauseProtocol);
    ("HNBAP_CauseMisc", T_HNBAP_CauseMisc);
    ("HNBAP_Cause", T_HNBAP_Cause);
    ("HNBAP_HNBConfigurationInformationMissing", T_HNBAP_HNBConfigurationInformationMissing);
    ("HNBAP_ConfigurationInformation", T_HNBAP_ConfigurationInformation);
    ("HNBAP_HNBConfigInfo", T_HNBAP_HNBConfigInfo);
    ("HNBAP_AdditionalNeighbourInfoList", T_HNBAP_AdditionalNeighbourInfoList);
    ("HNBAP_AltitudeAndDirection__directionOfAltitude_2", T_HNBAP_AltitudeAndDirection__directionOfAltitude_2);
    ("HNBAP_AltitudeAndDirection", T_HNBAP_AltitudeAndDirection);
    ("HNBAP_BackoffTimer", T_HNBAP_BackoffTimer);
    ("HNBAP_BindingID", T_HNBAP_BindingID);
    ("HNBAP_CELL_FACHMobilitySupport", T_HNBAP_CELL_FACHMobilitySupport);
    ("HNBAP_LAC", T_HNBAP_LAC);
    ("HNBAP_CI", T_HNBAP_CI);
    ("HNBAP_CGI", T_HNBAP_CGI);
    ("HNBAP_CN_DomainIndicator", T_HNBAP_CN_DomainIndicator);
    ("HNBAP_CSG_Capability", T_HNBAP_CSG_Capability);
    ("HNBAP_CSGMembershipStatus", T_HNBAP_CSGMembershipStatus);
    ("HNBAP_CSGMembershipUpdate__csgMembershipUpdate_ies_2", T_HNBAP_CSGMembershipUpdate__csgMembershipUpdate_ies_2);
    ("HNBAP_CSGMembershipUpdate", T_HNBAP_CSGMembershipUpdate);
    ("HNBAP_Context_ID", T_HNBAP_Context_ID);
    ("HNBAP_TypeOfError", T_HNBAP_TypeOfError);
    ("HNBAP_CriticalityDiagnostics_IE_List_Value", T_HNBAP_CriticalityDiagnostics_IE_List_Value);
    ("HNBAP_CriticalityDiagnostics_IE_List", T_HNBAP_CriticalityDiagnostics_IE_List);
    ("HNBAP_ProcedureCode", T_HNBAP_ProcedureCode);
    ("HNBAP_TriggeringMessage", T_HNBAP_TriggeringMessage);
    ("HNBAP_CriticalityDiagnostics", T_HNBAP_CriticalityDiagnostics);
    ("HNBAP_ESN", T_HNBAP_ESN);
    ("HNBAP_ErrorIndication__errorIndication_ies_2", T_HNBAP_ErrorIndication__errorIndication_ies_2);
    ("HNBAP_ErrorIndication", T_HNBAP_ErrorIndication);
    ("HNBAP_GTP_TEI", T_HNBAP_GTP_TEI);
    ("HNBAP_GeographicalCoordinates__latitudeSign_2", T_HNBAP_GeographicalCoordinates__latitudeSign_2);
    ("HNBAP_GeographicalCoordinates", T_HNBAP_GeographicalCoordinates);
    ("HNBAP_GeographicalLocation", T_HNBAP_GeographicalLocation);
    ("HNBAP_RNC_ID", T_HNBAP_RNC_ID);
    ("HNBAP_UnknownU_RNTIIndication", T_HNBAP_UnknownU_RNTIIndication);
    ("HNBAP_HNB_GWResponse", T_HNBAP_HNB_GWResponse);
    ("HNBAP_HNB_Identity_Info", T_HNBAP_HNB_Identity_Info);
    ("HNBAP_HNB_Identity", T_HNBAP_HNB_Identity);
    ("HNBAP_RAC", T_HNBAP_RAC);
    ("HNBAP_UTRANCellID", T_HNBAP_UTRANCellID);
    ("HNBAP_MacroCellID", T_HNBAP_MacroCellID);
    ("HNBAP_MacroCoverageInformation", T_HNBAP_MacroCoverageInformation);
    ("HNBAP_HNB_Location_Information", T_HNBAP_HNB_Location_Information);
    ("HNBAP_InitiatingMessage", T_HNBAP_InitiatingMessage);
    ("HNBAP_SuccessfulOutcome", T_HNBAP_SuccessfulOutcome);
    ("HNBAP_UnsuccessfulOutcome", T_HNBAP_UnsuccessfulOutcome);
    ("HNBAP_HNBAP_PDU", T_HNBAP_HNBAP_PDU);
    ("HNBAP_HNBCapacity", T_HNBAP_HNBCapacity);
    ("HNBAP_HNBConfigTransferRequest__hnbConfigTransferRequest_ies_2", T_HNBAP_HNBConfigTransferRequest__hnbConfigTransferRequest_ies_2);
    ("HNBAP_HNBConfigTransferRequest", T_HNBAP_HNBConfigTransferRequest);
    ("HNBAP_HNBConfigTransferResponse__hnbConfigTransferResponse_ies_2", T_HNBAP_HNBConfigTransferResponse__hnbConfigTransferResponse_ies_2);
    ("HNBAP_HNBConfigTransferResponse", T_HNBAP_HNBConfigTransferResponse);
    ("HNBAP_HNBDe_Register__hnbDe_Register_ies_2", T_HNBAP_HNBDe_Register__hnbDe_Register_ies_2);
    ("HNBAP_HNBDe_Register", T_HNBAP_HNBDe_Register);
    ("HNBAP_HNBRegisterAccept__hnbRegisterAccept_ies_2", T_HNBAP_HNBRegisterAccept__hnbRegisterAccept_ies_2);
    ("HNBAP_HNBRegisterAccept", T_HNBAP_HNBRegisterAccept);
    ("HNBAP_HNBRegisterReject__hnbRegisterReject_ies_2", T_HNBAP_HNBRegisterReject__hnbRegisterReject_ies_2);
    ("HNBAP_HNBRegisterReject", T_HNBAP_HNBRegisterReject);
    ("HNBAP_HNBRegisterRequest__hnbRegisterRequest_ies_2", T_HNBAP_HNBRegisterRequest__hnbRegisterRequest_ies_2);
    ("HNBAP_HNBRegisterRequest", T_HNBAP_HNBRegisterRequest);
    ("HNBAP_IMEI", T_HNBAP_IMEI);
    ("HNBAP_IMSI", T_HNBAP_IMSI);
    ("HNBAP_IMSIDS41", T_HNBAP_IMSIDS41);
    ("HNBAP_IMSIESN", T_HNBAP_IMSIESN);
    ("HNBAP_LAI", T_HNBAP_LAI);
    ("HNBAP_MuxPortNumber", T_HNBAP_MuxPortNumber);
    ("HNBAP_NeighbourIdentity", T_HNBAP_NeighbourIdentity);
    ("HNBAP_NeighbourCellIdentityList", T_HNBAP_NeighbourCellIdentityList);
    ("HNBAP_NeighbourInfoList", T_HNBAP_NeighbourInfoList);
    ("HNBAP_NeighbourInfoRequestItem", T_HNBAP_NeighbourInfoRequestItem);
    ("HNBAP_NeighbourInfoRequestList", T_HNBAP_NeighbourInfoRequestList);
    ("HNBAP_PTMSI", T_HNBAP_PTMSI);
    ("HNBAP_RAI", T_HNBAP_RAI);
    ("HNBAP_PTMSIRAI", T_HNBAP_PTMSIRAI);
    ("HNBAP_Presence", T_HNBAP_Presence);
    ("HNBAP_PrivateIE_ID", T_HNBAP_PrivateIE_ID);
    ("HNBAP_PrivateMessage__privateMessage_ies_2", T_HNBAP_PrivateMessage__privateMessage_ies_2);
    ("HNBAP_PrivateMessage", T_HNBAP_PrivateMessage);
    ("HNBAP_RAB_ID", T_HNBAP_RAB_ID);
    ("HNBAP_TransportLayerAddress", T_HNBAP_TransportLayerAddress);
    ("HNBAP_TransportInfo__transportAssociation_3", T_HNBAP_TransportInfo__transportAssociation_3);
    ("HNBAP_TransportInfo", T_HNBAP_TransportInfo);
    ("HNBAP_RABListItem", T_HNBAP_RABListItem);
    ("HNBAP_RABList", T_HNBAP_RABList);
    ("HNBAP_Registration_Cause", T_HNBAP_Registration_Cause);
    ("HNBAP_RelocationComplete__relocationComplete_ies_2", T_HNBAP_RelocationComplete__relocationComplete_ies_2);
    ("HNBAP_RelocationComplete", T_HNBAP_RelocationComplete);
    ("HNBAP_S_RNTIPrefix", T_HNBAP_S_RNTIPrefix);
    ("HNBAP_SAC", T_HNBAP_SAC);
    ("HNBAP_TMSIDS41", T_HNBAP_TMSIDS41);
    ("HNBAP_TMSILAI", T_HNBAP_TMSILAI);
    ("HNBAP_TNLUpdateFailure__tnlUpdateFailure_ies_2", T_HNBAP_TNLUpdateFailure__tnlUpdateFailure_ies_2);
    ("HNBAP_TNLUpdateFailure", T_HNBAP_TNLUpdateFailure);
    ("HNBAP_TNLUpdateRequest__tnlUpdateRequest_ies_2", T_HNBAP_TNLUpdateRequest__tnlUpdateRequest_ies_2);
    ("HNBAP_TNLUpdateRequest", T_HNBAP_TNLUpdateRequest);
    ("HNBAP_TNLUpdateResponse__tnlUpdateResponse_ies_2", T_HNBAP_TNLUpdateResponse__tnlUpdateResponse_ies_2);
    ("HNBAP_TNLUpdateResponse", T_HNBAP_TNLUpdateResponse);
    ("HNBAP_UDP_Port_Number", T_HNBAP_UDP_Port_Number);
    ("HNBAP_Tunnel_Information", T_HNBAP_Tunnel_Information);
    ("HNBAP_U_RNTI", T_HNBAP_U_RNTI);
    ("HNBAP_U_RNTIQueryRequest__u_RNTIQueryRequest_ies_2", T_HNBAP_U_RNTIQueryRequest__u_RNTIQueryRequest_ies_2);
    ("HNBAP_U_RNTIQueryRequest", T_HNBAP_U_RNTIQueryRequest);
    ("HNBAP_U_RNTIQueryResponse__u_RNTIQueryResponse_ies_2", T_HNBAP_U_RNTIQueryResponse__u_RNTIQueryResponse_ies_2);
    ("HNBAP_U_RNTIQueryResponse", T_HNBAP_U_RNTIQueryResponse);
    ("HNBAP_UE_Capabilities", T_HNBAP_UE_Capabilities);
    ("HNBAP_UE_Identity", T_HNBAP_UE_Identity);
    ("HNBAP_UEDe_Register__ueDe_Register_ies_2", T_HNBAP_UEDe_Register__ueDe_Register_ies_2);
    ("HNBAP_UEDe_Register", T_HNBAP_UEDe_Register);
    ("HNBAP_UERegisterAccept__ueRegisterAccept_ies_2", T_HNBAP_UERegisterAccept__ueRegisterAccept_ies_2);
    ("HNBAP_UERegisterAccept", T_HNBAP_UERegisterAccept);
    ("HNBAP_UERegisterReject__ueRegisterReject_ies_2", T_HNBAP_UERegisterReject__ueRegisterReject_ies_2);
    ("HNBAP_UERegisterReject", T_HNBAP_UERegisterReject);
    ("HNBAP_UERegisterRequest__ueRegisterRequest_ies_2", T_HNBAP_UERegisterRequest__ueRegisterRequest_ies_2);
    ("HNBAP_UERegisterRequest", T_HNBAP_UERegisterRequest);
    ("HNBAP_URAIdentity", T_HNBAP_URAIdentity);
    ("HNBAP_URAIdentityList", T_HNBAP_URAIdentityList);
    ("HNBAP_Update_cause", T_HNBAP_Update_cause) ].
