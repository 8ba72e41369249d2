(* Generated by a script from the descriptors of src/rua/*.c: each definition
   is one asn_TYPE_descriptor_t with its member table and PER constraints.
   Optional components are marked true. *)
From Verif Require Import Base Aper.
From Coq Require Import String.
Local Open Scope Z_scope.

(* src/rua/RUA_Ansi-41-IDNNS.c:147-171 asn_DEF_RUA_Ansi_41_IDNNS *)
Definition T_RUA_Ansi_41_IDNNS : ty := TBits (Some (mkCon false 14 14)).
(* src/rua/RUA_CN-DomainIndicator.c:141-165 asn_DEF_RUA_CN_DomainIndicator *)
Definition T_RUA_CN_DomainIndicator : ty := TEnum false [0; 1] [].
(* src/rua/RUA_CSGMembershipStatus.c:143-167 asn_DEF_RUA_CSGMembershipStatus *)
Definition T_RUA_CSGMembershipStatus : ty := TEnum true [0; 1] [].
(* src/rua/RUA_CauseRadioNetwork.c:147-171 asn_DEF_RUA_CauseRadioNetwork *)
Definition T_RUA_CauseRadioNetwork : ty := TEnum true [0; 1; 2; 3] [].
(* src/rua/RUA_CauseTransport.c:143-167 asn_DEF_RUA_CauseTransport *)
Definition T_RUA_CauseTransport : ty := TEnum true [0; 1] [].
(* src/rua/RUA_CauseProtocol.c:153-177 asn_DEF_RUA_CauseProtocol *)
Definition T_RUA_CauseProtocol : ty := TEnum true [0; 1; 2; 3; 4; 5; 6] [].
(* src/rua/RUA_CauseMisc.c:147-171 asn_DEF_RUA_CauseMisc *)
Definition T_RUA_CauseMisc : ty := TEnum true [0; 1; 2; 3] [].
(* src/rua/RUA_Cause.c:69-92 asn_DEF_RUA_Cause *)
Definition T_RUA_Cause : ty := TChoice true
    [T_RUA_CauseRadioNetwork; T_RUA_CauseTransport; T_RUA_CauseProtocol; T_RUA_CauseMisc]
    [].
(* src/rua/RUA_ProtocolIE-ID.c:141-165 asn_DEF_RUA_ProtocolIE_ID *)
Definition T_RUA_ProtocolIE_ID : ty := TInt (Some (mkCon false 0 65535)).
(* src/rua/RUA_Criticality.c:143-167 asn_DEF_RUA_Criticality *)
Definition T_RUA_Criticality : ty := TEnum false [0; 1; 2] [].
(* src/rua/RUA_IE.c:56-81 asn_DEF_RUA_IE *)
Definition T_RUA_IE : ty := TSeq false
    [(false, T_RUA_ProtocolIE_ID); (false, T_RUA_Criticality); (false, (TOcts None))]
    [].
(* src/rua/RUA_Connect.c:67-92 asn_DEF_connect_ies_2 *)
Definition T_RUA_Connect__connect_ies_2 : ty := TSeqOf (Some (mkCon false 0 65535)) T_RUA_IE.
(* src/rua/RUA_Connect.c:120-145 asn_DEF_RUA_Connect *)
Definition T_RUA_Connect : ty := TSeq true
    [(false, T_RUA_Connect__connect_ies_2)]
    [].
(* src/rua/RUA_ConnectionlessTransfer.c:67-92 asn_DEF_connectionlessTransfer_ies_2 *)
Definition T_RUA_ConnectionlessTransfer__connectionlessTransfer_ies_2 : ty := TSeqOf (Some (mkCon false 0 65535)) T_RUA_IE.
(* src/rua/RUA_ConnectionlessTransfer.c:120-145 asn_DEF_RUA_ConnectionlessTransfer *)
Definition T_RUA_ConnectionlessTransfer : ty := TSeq true
    [(false, T_RUA_ConnectionlessTransfer__connectionlessTransfer_ies_2)]
    [].
(* src/rua/RUA_Context-ID.c:147-171 asn_DEF_RUA_Context_ID *)
Definition T_RUA_Context_ID : ty := TBits (Some (mkCon false 24 24)).
(* src/rua/RUA_TypeOfError.c:143-167 asn_DEF_RUA_TypeOfError *)
Definition T_RUA_TypeOfError : ty := TEnum true [0; 1] [].
(* src/rua/RUA_IE-Extensions.c:34-59 asn_DEF_RUA_IE_Extensions *)
Definition T_RUA_IE_Extensions : ty := TSeqOf (Some (mkCon false 1 65535)) T_RUA_IE.
(* src/rua/RUA_CriticalityDiagnostics-IE-List-Value.c:68-93 asn_DEF_RUA_CriticalityDiagnostics_IE_List_Value *)
Definition T_RUA_CriticalityDiagnostics_IE_List_Value : ty := TSeq true
    [(false, T_RUA_Criticality); (false, T_RUA_ProtocolIE_ID); (false, T_RUA_TypeOfError); (true, T_RUA_IE_Extensions)]
    [].
(* src/rua/RUA_CriticalityDiagnostics-IE-List.c:34-59 asn_DEF_RUA_CriticalityDiagnostics_IE_List *)
Definition T_RUA_CriticalityDiagnostics_IE_List : ty := TSeqOf (Some (mkCon false 1 256)) T_RUA_CriticalityDiagnostics_IE_List_Value.
(* src/rua/RUA_ProcedureCode.c:141-165 asn_DEF_RUA_ProcedureCode *)
Definition T_RUA_ProcedureCode : ty := TInt (Some (mkCon false 0 255)).
(* src/rua/RUA_TriggeringMessage.c:143-167 asn_DEF_RUA_TriggeringMessage *)
Definition T_RUA_TriggeringMessage : ty := TEnum false [0; 1; 2] [].
(* src/rua/RUA_CriticalityDiagnostics.c:78-103 asn_DEF_RUA_CriticalityDiagnostics *)
Definition T_RUA_CriticalityDiagnostics : ty := TSeq true
    [(true, T_RUA_ProcedureCode); (true, T_RUA_TriggeringMessage); (true, T_RUA_Criticality); (true, T_RUA_CriticalityDiagnostics_IE_List); (true, T_RUA_IE_Extensions)]
    [].
(* src/rua/RUA_DirectTransfer.c:67-92 asn_DEF_directTransfer_ies_2 *)
Definition T_RUA_DirectTransfer__directTransfer_ies_2 : ty := TSeqOf (Some (mkCon false 0 65535)) T_RUA_IE.
(* src/rua/RUA_DirectTransfer.c:120-145 asn_DEF_RUA_DirectTransfer *)
Definition T_RUA_DirectTransfer : ty := TSeq true
    [(false, T_RUA_DirectTransfer__directTransfer_ies_2)]
    [].
(* src/rua/RUA_Disconnect.c:67-92 asn_DEF_disconnect_ies_2 *)
Definition T_RUA_Disconnect__disconnect_ies_2 : ty := TSeqOf (Some (mkCon false 0 65535)) T_RUA_IE.
(* src/rua/RUA_Disconnect.c:120-145 asn_DEF_RUA_Disconnect *)
Definition T_RUA_Disconnect : ty := TSeq true
    [(false, T_RUA_Disconnect__disconnect_ies_2)]
    [].
(* src/rua/RUA_ErrorIndication.c:67-92 asn_DEF_errorIndication_ies_2 *)
Definition T_RUA_ErrorIndication__errorIndication_ies_2 : ty := TSeqOf (Some (mkCon false 0 65535)) T_RUA_IE.
(* src/rua/RUA_ErrorIndication.c:120-145 asn_DEF_RUA_ErrorIndication *)
Definition T_RUA_ErrorIndication : ty := TSeq true
    [(false, T_RUA_ErrorIndication__errorIndication_ies_2)]
    [].
(* src/rua/RUA_Establishment-Cause.c:143-167 asn_DEF_RUA_Establishment_Cause *)
Definition T_RUA_Establishment_Cause : ty := TEnum true [0; 1] [].
(* src/rua/RUA_RoutingParameter.c:147-171 asn_DEF_RUA_RoutingParameter *)
Definition T_RUA_RoutingParameter : ty := TBits (Some (mkCon false 10 10)).
(* src/rua/RUA_Gsm-map-IDNNS.c:43-68 asn_DEF_localPTMSI_3 *)
Definition T_RUA_Gsm_map_IDNNS__localPTMSI_3 : ty := TSeq false
    [(false, T_RUA_RoutingParameter)]
    [].
(* src/rua/RUA_Gsm-map-IDNNS.c:98-123 asn_DEF_tMSIofsamePLMN_5 *)
Definition T_RUA_Gsm_map_IDNNS__tMSIofsamePLMN_5 : ty := TSeq false
    [(false, T_RUA_RoutingParameter)]
    [].
(* src/rua/RUA_Gsm-map-IDNNS.c:153-178 asn_DEF_tMSIofdifferentPLMN_7 *)
Definition T_RUA_Gsm_map_IDNNS__tMSIofdifferentPLMN_7 : ty := TSeq false
    [(false, T_RUA_RoutingParameter)]
    [].
(* src/rua/RUA_Gsm-map-IDNNS.c:208-233 asn_DEF_iMSIresponsetopaging_9 *)
Definition T_RUA_Gsm_map_IDNNS__iMSIresponsetopaging_9 : ty := TSeq false
    [(false, T_RUA_RoutingParameter)]
    [].
(* src/rua/RUA_Gsm-map-IDNNS.c:263-288 asn_DEF_iMSIcauseUEinitiatedEvent_11 *)
Definition T_RUA_Gsm_map_IDNNS__iMSIcauseUEinitiatedEvent_11 : ty := TSeq false
    [(false, T_RUA_RoutingParameter)]
    [].
(* src/rua/RUA_Gsm-map-IDNNS.c:318-343 asn_DEF_iMEI_13 *)
Definition T_RUA_Gsm_map_IDNNS__iMEI_13 : ty := TSeq false
    [(false, T_RUA_RoutingParameter)]
    [].
(* src/rua/RUA_Gsm-map-IDNNS.c:373-398 asn_DEF_spare2_15 *)
Definition T_RUA_Gsm_map_IDNNS__spare2_15 : ty := TSeq false
    [(false, T_RUA_RoutingParameter)]
    [].
(* src/rua/RUA_Gsm-map-IDNNS.c:428-453 asn_DEF_spare1_17 *)
Definition T_RUA_Gsm_map_IDNNS__spare1_17 : ty := TSeq false
    [(false, T_RUA_RoutingParameter)]
    [].
(* src/rua/RUA_Gsm-map-IDNNS.c:550-573 asn_DEF_routingbasis_2 *)
Definition T_RUA_Gsm_map_IDNNS__routingbasis_2 : ty := TChoice false
    [T_RUA_Gsm_map_IDNNS__localPTMSI_3; T_RUA_Gsm_map_IDNNS__tMSIofsamePLMN_5; T_RUA_Gsm_map_IDNNS__tMSIofdifferentPLMN_7; T_RUA_Gsm_map_IDNNS__iMSIresponsetopaging_9; T_RUA_Gsm_map_IDNNS__iMSIcauseUEinitiatedEvent_11; T_RUA_Gsm_map_IDNNS__iMEI_13; T_RUA_Gsm_map_IDNNS__spare2_15; T_RUA_Gsm_map_IDNNS__spare1_17]
    [].
(* src/rua/RUA_Gsm-map-IDNNS.c:611-636 asn_DEF_RUA_Gsm_map_IDNNS *)
Definition T_RUA_Gsm_map_IDNNS : ty := TSeq false
    [(false, T_RUA_Gsm_map_IDNNS__routingbasis_2); (false, TBool)]
    [].
(* src/rua/RUA_InitiatingMessage.c:56-81 asn_DEF_RUA_InitiatingMessage *)
Definition T_RUA_InitiatingMessage : ty := TSeq false
    [(false, T_RUA_ProcedureCode); (false, T_RUA_Criticality); (false, (TOcts None))]
    [].
(* src/rua/RUA_IntraDomainNasNodeSelector.c:91-114 asn_DEF_cn_Type_4 *)
Definition T_RUA_IntraDomainNasNodeSelector__cn_Type_4 : ty := TChoice false
    [T_RUA_Gsm_map_IDNNS; T_RUA_Ansi_41_IDNNS]
    [].
(* src/rua/RUA_IntraDomainNasNodeSelector.c:144-169 asn_DEF_release99_3 *)
Definition T_RUA_IntraDomainNasNodeSelector__release99_3 : ty := TSeq false
    [(false, T_RUA_IntraDomainNasNodeSelector__cn_Type_4)]
    [].
(* src/rua/RUA_IntraDomainNasNodeSelector.c:199-224 asn_DEF_later_7 *)
Definition T_RUA_IntraDomainNasNodeSelector__later_7 : ty := TSeq false
    [(false, (TBits (Some (mkCon false 15 15))))]
    [].
(* src/rua/RUA_IntraDomainNasNodeSelector.c:261-284 asn_DEF_version_2 *)
Definition T_RUA_IntraDomainNasNodeSelector__version_2 : ty := TChoice false
    [T_RUA_IntraDomainNasNodeSelector__release99_3; T_RUA_IntraDomainNasNodeSelector__later_7]
    [].
(* src/rua/RUA_IntraDomainNasNodeSelector.c:312-337 asn_DEF_RUA_IntraDomainNasNodeSelector *)
Definition T_RUA_IntraDomainNasNodeSelector : ty := TSeq false
    [(false, T_RUA_IntraDomainNasNodeSelector__version_2)]
    [].
(* src/rua/RUA_Presence.c:143-167 asn_DEF_RUA_Presence *)
Definition T_RUA_Presence : ty := TEnum false [0; 1; 2] [].
(* src/rua/RUA_PrivateIE-ID.c:79-102 asn_DEF_RUA_PrivateIE_ID *)
Definition T_RUA_PrivateIE_ID : ty := TChoice false
    [(TInt (Some (mkCon false 0 65535))); (TOcts None)]
    [].
(* src/rua/RUA_PrivateMessage.c:67-92 asn_DEF_privateMessage_ies_2 *)
Definition T_RUA_PrivateMessage__privateMessage_ies_2 : ty := TSeqOf (Some (mkCon false 0 65535)) T_RUA_IE.
(* src/rua/RUA_PrivateMessage.c:120-145 asn_DEF_RUA_PrivateMessage *)
Definition T_RUA_PrivateMessage : ty := TSeq true
    [(false, T_RUA_PrivateMessage__privateMessage_ies_2)]
    [].
(* src/rua/RUA_RANAP-Message.c:119-143 asn_DEF_RUA_RANAP_Message *)
Definition T_RUA_RANAP_Message : ty := TOcts None.
(* src/rua/RUA_SuccessfulOutcome.c:56-81 asn_DEF_RUA_SuccessfulOutcome *)
Definition T_RUA_SuccessfulOutcome : ty := TSeq false
    [(false, T_RUA_ProcedureCode); (false, T_RUA_Criticality); (false, (TOcts None))]
    [].
(* src/rua/RUA_UnsuccessfulOutcome.c:56-81 asn_DEF_RUA_UnsuccessfulOutcome *)
Definition T_RUA_UnsuccessfulOutcome : ty := TSeq false
    [(false, T_RUA_ProcedureCode); (false, T_RUA_Criticality); (false, (TOcts None))]
    [].
(* src/rua/RUA_RUA-PDU.c:59-82 asn_DEF_RUA_RUA_PDU *)
Definition T_RUA_RUA_PDU : ty := TChoice true
    [T_RUA_InitiatingMessage; T_RUA_SuccessfulOutcome; T_RUA_UnsuccessfulOutcome]
    [].

Local Open Scope string_scope.
(* all descriptors of src/rua, each at the lines cited above *)
Definition rua_types : list (string * ty) :=
  [ ("RUA_Ansi_41_IDNNS", T_RUA_Ansi_41_IDNNS);
    ("RUA_CN_DomainIndicator", T_RUA_CN_DomainIndicator);
    ("RUA_CSGMembershipStatus", T_RUA_CSGMembershipStatus);
    ("RUA_CauseRadioNetwork", T_RUA_CauseRadioNetwork);
    ("RUA_CauseTransport", T_RUA_CauseTransport);
    ("RUA_CauseProtocol", T_RUA_CauseProtocol);
    ("RUA_CauseMisc", T_RUA_CauseMisc);
    ("RUA_Cause", T_RUA_Cause);
    ("RUA_ProtocolIE_ID", T_RUA_ProtocolIE_ID);
    ("RUA_Criticality", T_RUA_Criticality);
    ("RUA_IE", T_RUA_IE);
    ("RUA_Connect__connect_ies_2", T_RUA_Connect__connect_ies_2);
    ("RUA_Connect", T_RUA_Connect);
    ("RUA_ConnectionlessTransfer__connectionlessTransfer_ies_2", T_RUA_ConnectionlessTransfer__connectionlessTransfer_ies_2);
    ("RUA_ConnectionlessTransfer", T_RUA_ConnectionlessTransfer);
    ("RUA_Context_ID", T_RUA_Context_ID);
    ("RUA_TypeOfError", T_RUA_TypeOfError);
    ("RUA_IE_Extensions", T_RUA_IE_Extensions);
    ("RUA_CriticalityDiagnostics_IE_List_Value", T_RUA_CriticalityDiagnostics_IE_List_Value);
    ("RUA_CriticalityDiagnostics_IE_List", T_RUA_CriticalityDiagnostics_IE_List);
    ("RUA_ProcedureCode", T_RUA_ProcedureCode);
    ("RUA_TriggeringMessage", T_RUA_TriggeringMessage);
    ("RUA_CriticalityDiagnostics", T_RUA_CriticalityDiagnostics);
    ("RUA_DirectTransfer__directTransfer_ies_2", T_RUA_DirectTransfer__directTransfer_ies_2);
    ("RUA_DirectTransfer", T_RUA_DirectTransfer);
    ("RUA_Disconnect__disconnect_ies_2", T_RUA_Disconnect__disconnect_ies_2);
    ("RUA_Disconnect", T_RUA_Disconnect);
    ("RUA_ErrorIndication__errorIndication_ies_2", T_RUA_ErrorIndication__errorIndication_ies_2);
    ("RUA_ErrorIndication", T_RUA_ErrorIndication);
    ("RUA_Establishment_Cause", T_RUA_Establishment_Cause);
    ("RUA_RoutingParameter", T_RUA_RoutingParameter);
    ("RUA_Gsm_map_IDNNS__localPTMSI_3", T_RUA_Gsm_map_IDNNS__localPTMSI_3);
    ("RUA_Gsm_map_IDNNS__tMSIofsamePLMN_5", T_RUA_Gsm_map_IDNNS__tMSIofsamePLMN_5);
    ("RUA_Gsm_map_IDNNS__tMSIofdifferentPLMN_7", T_RUA_Gsm_map_IDNNS__tMSIofdifferentPLMN_7);
    ("RUA_Gsm_map_IDNNS__iMSIresponsetopaging_9", T_RUA_Gsm_map_IDNNS__iMSIresponsetopaging_9);
    ("RUA_Gsm_map_IDNNS__iMSIcauseUEinitiatedEvent_11", T_RUA_Gsm_map_IDNNS__iMSIcauseUEinitiatedEvent_11);
    ("RUA_Gsm_map_IDNNS__iMEI_13", T_RUA_Gsm_map_IDNNS__iMEI_13);
    ("RUA_Gsm_map_IDNNS__spare2_15", T_RUA_Gsm_map_IDNNS__spare2_15);
    ("RUA_Gsm_map_IDNNS__spare1_17", T_RUA_Gsm_map_IDNNS__spare1_17);
    ("RUA_Gsm_map_IDNNS__routingbasis_2", T_RUA_Gsm_map_IDNNS__routingbasis_2);
    ("RUA_Gsm_map_IDNNS", T_RUA_Gsm_map_IDNNS);
    ("RUA_InitiatingMessage", T_RUA_InitiatingMessage);
    ("RUA_IntraDomainNasNodeSelector__cn_Type_4", T_RUA_IntraDomainNasNodeSelector__cn_Type_4);
    ("RUA_IntraDomainNasNodeSelector__release99_3", T_RUA_IntraDomainNasNodeSelector__release99_3);
    ("RUA_IntraDomainNasNodeSelector__later_7", T_RUA_IntraDomainNasNodeSelector__later_7);
    ("RUA_IntraDomainNasNodeSelector__version_2", T_RUA_IntraDomainNasNodeSelector__version_2);
    ("RUA_IntraDomainNasNodeSelector", T_RUA_IntraDomainNasNodeSelector);
    ("RUA_Presence", T_RUA_Presence);
    ("RUA_PrivateIE_ID", T_RUA_PrivateIE_ID);
    ("RUA_PrivateMessage__privateMessage_ies_2", T_RUA_PrivateMessage__privateMessage_ies_2);
    ("RUA_PrivateMessage", T_RUA_PrivateMessage);
    ("RUA_RANAP_Message", T_RUA_RANAP_Message);
    ("RUA_SuccessfulOutcome", T_RUA_SuccessfulOutcome);
    ("RUA_UnsuccessfulOutcome", T_RUA_UnsuccessfulOutcome);
    ("RUA_RUA_PDU", T_RUA_RUA_PDU) ].
