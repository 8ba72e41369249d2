(* Generated by a script from the descriptors of src/sabp/*.c: each definition
   is one asn_TYPE_descriptor_t with its member table and PER constraints.
   Optional components are marked true. *)
From Verif Require Import Base Aper.
From Coq Require Import String.
Local Open Scope Z_scope.

(* src/sabp/SABP_Available-Bandwidth.c:141-165 asn_DEF_SABP_Available_Bandwidth *)
Definition T_SABP_Available_Bandwidth : ty := TInt (Some (mkCon false 0 20480)).
(* src/sabp/SABP_Broadcast-Message-Content-Validity-Indicator.c:141-165 asn_DEF_SABP_Broadcast_Message_Content_Validity_Indicator *)
Definition T_SABP_Broadcast_Message_Content_Validity_Indicator : ty := TEnum true [0] [].
(* src/sabp/SABP_Broadcast-Message-Content.c:147-171 asn_DEF_SABP_Broadcast_Message_Content *)
Definition T_SABP_Broadcast_Message_Content : ty := TBits (Some (mkCon false 1 9968)).
(* src/sabp/SABP_Category.c:147-171 asn_DEF_SABP_Category *)
Definition T_SABP_Category : ty := TEnum true [0; 1; 2; 3] [].
(* src/sabp/SABP_Cause.c:141-165 asn_DEF_SABP_Cause *)
Definition T_SABP_Cause : ty := TInt (Some (mkCon false 0 255)).
(* src/sabp/SABP_ProcedureCode.c:141-165 asn_DEF_SABP_ProcedureCode *)
Definition T_SABP_ProcedureCode : ty := TInt (Some (mkCon false 0 255)).
(* src/sabp/SABP_TriggeringMessage.c:145-169 asn_DEF_SABP_TriggeringMessage *)
Definition T_SABP_TriggeringMessage : ty := TEnum false [0; 1; 2; 3] [].
(* src/sabp/SABP_Criticality.c:143-167 asn_DEF_SABP_Criticality *)
Definition T_SABP_Criticality : ty := TEnum false [0; 1; 2] [].
(* src/sabp/SABP_ProtocolIE-ID.c:141-165 asn_DEF_SABP_ProtocolIE_ID *)
Definition T_SABP_ProtocolIE_ID : ty := TInt (Some (mkCon false 0 65535)).
(* src/sabp/SABP_RepetitionNumber0.c:141-165 asn_DEF_SABP_RepetitionNumber0 *)
Definition T_SABP_RepetitionNumber0 : ty := TInt (Some (mkCon false 0 255)).
(* src/sabp/SABP_IE.c:56-81 asn_DEF_SABP_IE *)
Definition T_SABP_IE : ty := TSeq false
    [(false, T_SABP_ProtocolIE_ID); (false, T_SABP_Criticality); (false, (TOcts None))]
    [].
(* src/sabp/SABP_IE-Extensions.c:34-59 asn_DEF_SABP_IE_Extensions *)
Definition T_SABP_IE_Extensions : ty := TSeqOf (Some (mkCon false 1 65535)) T_SABP_IE.
(* src/sabp/SABP_CriticalityDiagnostics-IE-List-Value.c:68-93 asn_DEF_SABP_CriticalityDiagnostics_IE_List_Value *)
Definition T_SABP_CriticalityDiagnostics_IE_List_Value : ty := TSeq true
    [(false, T_SABP_Criticality); (false, T_SABP_ProtocolIE_ID); (true, T_SABP_RepetitionNumber0); (true, T_SABP_IE_Extensions)]
    [].
(* src/sabp/SABP_CriticalityDiagnostics-IE-List.c:34-59 asn_DEF_SABP_CriticalityDiagnostics_IE_List *)
Definition T_SABP_CriticalityDiagnostics_IE_List : ty := TSeqOf (Some (mkCon false 1 256)) T_SABP_CriticalityDiagnostics_IE_List_Value.
(* src/sabp/SABP_Criticality-Diagnostics.c:78-103 asn_DEF_SABP_Criticality_Diagnostics *)
Definition T_SABP_Criticality_Diagnostics : ty := TSeq true
    [(true, T_SABP_ProcedureCode); (true, T_SABP_TriggeringMessage); (true, T_SABP_Criticality); (true, T_SABP_CriticalityDiagnostics_IE_List); (true, T_SABP_IE_Extensions)]
    [].
(* src/sabp/SABP_Data-Coding-Scheme.c:147-171 asn_DEF_SABP_Data_Coding_Scheme *)
Definition T_SABP_Data_Coding_Scheme : ty := TBits (Some (mkCon false 8 8)).
(* src/sabp/SABP_Error-Indication.c:67-92 asn_DEF_error_Indication_ies_2 *)
Definition T_SABP_Error_Indication__error_Indication_ies_2 : ty := TSeqOf (Some (mkCon false 0 65535)) T_SABP_IE.
(* src/sabp/SABP_Error-Indication.c:120-145 asn_DEF_SABP_Error_Indication *)
Definition T_SABP_Error_Indication : ty := TSeq true
    [(false, T_SABP_Error_Indication__error_Indication_ies_2)]
    [].
(* src/sabp/SABP_Service-Area-Identifier.c:149-174 asn_DEF_SABP_Service_Area_Identifier *)
Definition T_SABP_Service_Area_Identifier : ty := TSeq false
    [(false, (TOcts (Some (mkCon false 3 3)))); (false, (TOcts (Some (mkCon false 2 2)))); (false, (TOcts (Some (mkCon false 2 2))))]
    [].
(* src/sabp/SABP_Failure-List-Item.c:58-83 asn_DEF_SABP_Failure_List_Item *)
Definition T_SABP_Failure_List_Item : ty := TSeq true
    [(false, T_SABP_Service_Area_Identifier); (false, T_SABP_Cause); (true, T_SABP_IE_Extensions)]
    [].
(* src/sabp/SABP_Failure-List.c:34-59 asn_DEF_SABP_Failure_List *)
Definition T_SABP_Failure_List : ty := TSeqOf (Some (mkCon false 1 65535)) T_SABP_Failure_List_Item.
(* src/sabp/SABP_Failure.c:67-92 asn_DEF_failure_ies_2 *)
Definition T_SABP_Failure__failure_ies_2 : ty := TSeqOf (Some (mkCon false 0 65535)) T_SABP_IE.
(* src/sabp/SABP_Failure.c:120-145 asn_DEF_SABP_Failure *)
Definition T_SABP_Failure : ty := TSeq true
    [(false, T_SABP_Failure__failure_ies_2)]
    [].
(* src/sabp/SABP_InitiatingMessage.c:56-81 asn_DEF_SABP_InitiatingMessage *)
Definition T_SABP_InitiatingMessage : ty := TSeq false
    [(false, T_SABP_ProcedureCode); (false, T_SABP_Criticality); (false, (TOcts None))]
    [].
(* src/sabp/SABP_Kill-Complete.c:67-92 asn_DEF_kill_Complete_ies_2 *)
Definition T_SABP_Kill_Complete__kill_Complete_ies_2 : ty := TSeqOf (Some (mkCon false 0 65535)) T_SABP_IE.
(* src/sabp/SABP_Kill-Complete.c:120-145 asn_DEF_SABP_Kill_Complete *)
Definition T_SABP_Kill_Complete : ty := TSeq true
    [(false, T_SABP_Kill_Complete__kill_Complete_ies_2)]
    [].
(* src/sabp/SABP_Kill-Failure.c:67-92 asn_DEF_kill_Failure_ies_2 *)
Definition T_SABP_Kill_Failure__kill_Failure_ies_2 : ty := TSeqOf (Some (mkCon false 0 65535)) T_SABP_IE.
(* src/sabp/SABP_Kill-Failure.c:120-145 asn_DEF_SABP_Kill_Failure *)
Definition T_SABP_Kill_Failure : ty := TSeq true
    [(false, T_SABP_Kill_Failure__kill_Failure_ies_2)]
    [].
(* src/sabp/SABP_Kill.c:67-92 asn_DEF_kill_ies_2 *)
Definition T_SABP_Kill__kill_ies_2 : ty := TSeqOf (Some (mkCon false 0 65535)) T_SABP_IE.
(* src/sabp/SABP_Kill.c:120-145 asn_DEF_SABP_Kill *)
Definition T_SABP_Kill : ty := TSeq true
    [(false, T_SABP_Kill__kill_ies_2)]
    [].
(* src/sabp/SABP_Load-Query-Complete.c:67-92 asn_DEF_load_Query_Complete_ies_2 *)
Definition T_SABP_Load_Query_Complete__load_Query_Complete_ies_2 : ty := TSeqOf (Some (mkCon false 0 65535)) T_SABP_IE.
(* src/sabp/SABP_Load-Query-Complete.c:120-145 asn_DEF_SABP_Load_Query_Complete *)
Definition T_SABP_Load_Query_Complete : ty := TSeq true
    [(false, T_SABP_Load_Query_Complete__load_Query_Complete_ies_2)]
    [].
(* src/sabp/SABP_Load-Query-Failure.c:67-92 asn_DEF_load_Query_Failure_ies_2 *)
Definition T_SABP_Load_Query_Failure__load_Query_Failure_ies_2 : ty := TSeqOf (Some (mkCon false 0 65535)) T_SABP_IE.
(* src/sabp/SABP_Load-Query-Failure.c:120-145 asn_DEF_SABP_Load_Query_Failure *)
Definition T_SABP_Load_Query_Failure : ty := TSeq true
    [(false, T_SABP_Load_Query_Failure__load_Query_Failure_ies_2)]
    [].
(* src/sabp/SABP_Load-Query.c:67-92 asn_DEF_load_Query_ies_2 *)
Definition T_SABP_Load_Query__load_Query_ies_2 : ty := TSeqOf (Some (mkCon false 0 65535)) T_SABP_IE.
(* src/sabp/SABP_Load-Query.c:120-145 asn_DEF_SABP_Load_Query *)
Definition T_SABP_Load_Query : ty := TSeq true
    [(false, T_SABP_Load_Query__load_Query_ies_2)]
    [].
(* src/sabp/SABP_Message-Identifier.c:147-171 asn_DEF_SABP_Message_Identifier *)
Definition T_SABP_Message_Identifier : ty := TBits (Some (mkCon false 16 16)).
(* src/sabp/SABP_Message-Status-Query-Complete.c:67-92 asn_DEF_message_Status_Query_Complete_ies_2 *)
Definition T_SABP_Message_Status_Query_Complete__message_Status_Query_Complete_ies_2 : ty := TSeqOf (Some (mkCon false 0 65535)) T_SABP_IE.
(* src/sabp/SABP_Message-Status-Query-Complete.c:120-145 asn_DEF_SABP_Message_Status_Query_Complete *)
Definition T_SABP_Message_Status_Query_Complete : ty := TSeq true
    [(false, T_SABP_Message_Status_Query_Complete__message_Status_Query_Complete_ies_2)]
    [].
(* src/sabp/SABP_Message-Status-Query-Failure.c:67-92 asn_DEF_message_Status_Query_Failure_ies_2 *)
Definition T_SABP_Message_Status_Query_Failure__message_Status_Query_Failure_ies_2 : ty := TSeqOf (Some (mkCon false 0 65535)) T_SABP_IE.
(* src/sabp/SABP_Message-Status-Query-Failure.c:120-145 asn_DEF_SABP_Message_Status_Query_Failure *)
Definition T_SABP_Message_Status_Query_Failure : ty := TSeq true
    [(false, T_SABP_Message_Status_Query_Failure__message_Status_Query_Failure_ies_2)]
    [].
(* src/sabp/SABP_Message-Status-Query.c:67-92 asn_DEF_message_Status_Query_ies_2 *)
Definition T_SABP_Message_Status_Query__message_Status_Query_ies_2 : ty := TSeqOf (Some (mkCon false 0 65535)) T_SABP_IE.
(* src/sabp/SABP_Message-Status-Query.c:120-145 asn_DEF_SABP_Message_Status_Query *)
Definition T_SABP_Message_Status_Query : ty := TSeq true
    [(false, T_SABP_Message_Status_Query__message_Status_Query_ies_2)]
    [].
(* src/sabp/SABP_RepetitionNumber1.c:141-165 asn_DEF_SABP_RepetitionNumber1 *)
Definition T_SABP_RepetitionNumber1 : ty := TInt (Some (mkCon false 1 256)).
(* src/sabp/SABP_MessageStructure-Value.c:58-83 asn_DEF_SABP_MessageStructure_Value *)
Definition T_SABP_MessageStructure_Value : ty := TSeq true
    [(false, T_SABP_ProtocolIE_ID); (true, T_SABP_RepetitionNumber1); (true, T_SABP_IE_Extensions)]
    [].
(* src/sabp/SABP_MessageStructure.c:34-59 asn_DEF_SABP_MessageStructure *)
Definition T_SABP_MessageStructure : ty := TSeqOf (Some (mkCon false 1 256)) T_SABP_MessageStructure_Value.
(* src/sabp/SABP_New-Serial-Number.c:135-157 asn_DEF_SABP_New_Serial_Number *)
Definition T_SABP_New_Serial_Number : ty := TBits (Some (mkCon false 16 16)).
(* src/sabp/SABP_Number-Of-Broadcasts-Completed-Info.c:143-167 asn_DEF_SABP_Number_Of_Broadcasts_Completed_Info *)
Definition T_SABP_Number_Of_Broadcasts_Completed_Info : ty := TEnum true [0; 1] [].
(* src/sabp/SABP_Number-of-Broadcasts-Completed-List-Item.c:98-123 asn_DEF_SABP_Number_of_Broadcasts_Completed_List_Item *)
Definition T_SABP_Number_of_Broadcasts_Completed_List_Item : ty := TSeq true
    [(false, T_SABP_Service_Area_Identifier); (false, (TInt (Some (mkCon false 0 65535)))); (true, T_SABP_Number_Of_Broadcasts_Completed_Info); (true, T_SABP_IE_Extensions)]
    [].
(* src/sabp/SABP_Number-of-Broadcasts-Completed-List.c:34-59 asn_DEF_SABP_Number_of_Broadcasts_Completed_List *)
Definition T_SABP_Number_of_Broadcasts_Completed_List : ty := TSeqOf (Some (mkCon false 1 65535)) T_SABP_Number_of_Broadcasts_Completed_List_Item.
(* src/sabp/SABP_Number-of-Broadcasts-Requested.c:141-165 asn_DEF_SABP_Number_of_Broadcasts_Requested *)
Definition T_SABP_Number_of_Broadcasts_Requested : ty := TInt (Some (mkCon false 0 65535)).
(* src/sabp/SABP_Old-Serial-Number.c:135-157 asn_DEF_SABP_Old_Serial_Number *)
Definition T_SABP_Old_Serial_Number : ty := TBits (Some (mkCon false 16 16)).
(* src/sabp/SABP_Paging-ETWS-Indicator.c:141-165 asn_DEF_SABP_Paging_ETWS_Indicator *)
Definition T_SABP_Paging_ETWS_Indicator : ty := TEnum true [0] [].
(* src/sabp/SABP_Presence.c:143-167 asn_DEF_SABP_Presence *)
Definition T_SABP_Presence : ty := TEnum false [0; 1; 2] [].
(* src/sabp/SABP_ProtocolExtensionID.c:141-165 asn_DEF_SABP_ProtocolExtensionID *)
Definition T_SABP_ProtocolExtensionID : ty := TInt (Some (mkCon false 0 65535)).
(* src/sabp/SABP_Radio-Resource-Loading-List-Item.c:58-83 asn_DEF_SABP_Radio_Resource_Loading_List_Item *)
Definition T_SABP_Radio_Resource_Loading_List_Item : ty := TSeq true
    [(false, T_SABP_Service_Area_Identifier); (false, T_SABP_Available_Bandwidth); (true, T_SABP_IE_Extensions)]
    [].
(* src/sabp/SABP_Radio-Resource-Loading-List.c:34-59 asn_DEF_SABP_Radio_Resource_Loading_List *)
Definition T_SABP_Radio_Resource_Loading_List : ty := TSeqOf (Some (mkCon false 1 65535)) T_SABP_Radio_Resource_Loading_List_Item.
(* src/sabp/SABP_Recovery-Indication.c:141-165 asn_DEF_SABP_Recovery_Indication *)
Definition T_SABP_Recovery_Indication : ty := TEnum false [0; 1] [].
(* src/sabp/SABP_Repetition-Period.c:141-165 asn_DEF_SABP_Repetition_Period *)
Definition T_SABP_Repetition_Period : ty := TInt (Some (mkCon false 1 4096)).
(* src/sabp/SABP_Reset-Complete.c:67-92 asn_DEF_reset_Complete_ies_2 *)
Definition T_SABP_Reset_Complete__reset_Complete_ies_2 : ty := TSeqOf (Some (mkCon false 0 65535)) T_SABP_IE.
(* src/sabp/SABP_Reset-Complete.c:120-145 asn_DEF_SABP_Reset_Complete *)
Definition T_SABP_Reset_Complete : ty := TSeq true
    [(false, T_SABP_Reset_Complete__reset_Complete_ies_2)]
    [].
(* src/sabp/SABP_Reset-Failure.c:67-92 asn_DEF_reset_Failure_ies_2 *)
Definition T_SABP_Reset_Failure__reset_Failure_ies_2 : ty := TSeqOf (Some (mkCon false 0 65535)) T_SABP_IE.
(* src/sabp/SABP_Reset-Failure.c:120-145 asn_DEF_SABP_Reset_Failure *)
Definition T_SABP_Reset_Failure : ty := TSeq true
    [(false, T_SABP_Reset_Failure__reset_Failure_ies_2)]
    [].
(* src/sabp/SABP_Reset.c:67-92 asn_DEF_reset_ies_2 *)
Definition T_SABP_Reset__reset_ies_2 : ty := TSeqOf (Some (mkCon false 0 65535)) T_SABP_IE.
(* src/sabp/SABP_Reset.c:120-145 asn_DEF_SABP_Reset *)
Definition T_SABP_Reset : ty := TSeq true
    [(false, T_SABP_Reset__reset_ies_2)]
    [].
(* src/sabp/SABP_Restart.c:67-92 asn_DEF_restart_ies_2 *)
Definition T_SABP_Restart__restart_ies_2 : ty := TSeqOf (Some (mkCon false 0 65535)) T_SABP_IE.
(* src/sabp/SABP_Restart.c:120-145 asn_DEF_SABP_Restart *)
Definition T_SABP_Restart : ty := TSeq true
    [(false, T_SABP_Restart__restart_ies_2)]
    [].
(* src/sabp/SABP_SuccessfulOutcome.c:56-81 asn_DEF_SABP_SuccessfulOutcome *)
Definition T_SABP_SuccessfulOutcome : ty := TSeq false
    [(false, T_SABP_ProcedureCode); (false, T_SABP_Criticality); (false, (TOcts None))]
    [].
(* src/sabp/SABP_UnsuccessfulOutcome.c:56-81 asn_DEF_SABP_UnsuccessfulOutcome *)
Definition T_SABP_UnsuccessfulOutcome : ty := TSeq false
    [(false, T_SABP_ProcedureCode); (false, T_SABP_Criticality); (false, (TOcts None))]
    [].
(* src/sabp/SABP_SABP-PDU.c:59-82 asn_DEF_SABP_SABP_PDU *)
Definition T_SABP_SABP_PDU : ty := TChoice true
    [T_SABP_InitiatingMessage; T_SABP_SuccessfulOutcome; T_SABP_UnsuccessfulOutcome]
    [].
(* src/sabp/SABP_Serial-Number.c:147-171 asn_DEF_SABP_Serial_Number *)
Definition T_SABP_Serial_Number : ty := TBits (Some (mkCon false 16 16)).
(* src/sabp/SABP_Service-Areas-List.c:34-59 asn_DEF_SABP_Service_Areas_List *)
Definition T_SABP_Service_Areas_List : ty := TSeqOf (Some (mkCon false 1 65535)) T_SABP_Service_Area_Identifier.
(* src/sabp/SABP_TypeOfError.c:143-167 asn_DEF_SABP_TypeOfError *)
Definition T_SABP_TypeOfError : ty := TEnum true [0; 1] [].
(* src/sabp/SABP_Warning-Type.c:142-166 asn_DEF_SABP_Warning_Type *)
Definition T_SABP_Warning_Type : ty := TOcts (Some (mkCon false 2 2)).
(* src/sabp/SABP_WarningSecurityInfo.c:142-166 asn_DEF_SABP_WarningSecurityInfo *)
Definition T_SABP_WarningSecurityInfo : ty := TOcts (Some (mkCon false 50 50)).
(* src/sabp/SABP_Write-Replace-Complete.c:67-92 asn_DEF_write_Replace_Complete_ies_2 *)
Definition T_SABP_Write_Replace_Complete__write_Replace_Complete_ies_2 : ty := TSeqOf (Some (mkCon false 0 65535)) T_SABP_IE.
(* src/sabp/SABP_Write-Replace-Complete.c:120-145 asn_DEF_SABP_Write_Replace_Complete *)
Definition T_SABP_Write_Replace_Complete : ty := TSeq true
    [(false, T_SABP_Write_Replace_Complete__write_Replace_Complete_ies_2)]
    [].
(* src/sabp/SABP_Write-Replace-Failure.c:67-92 asn_DEF_write_Replace_Failure_ies_2 *)
Definition T_SABP_Write_Replace_Failure__write_Replace_Failure_ies_2 : ty := TSeqOf (Some (mkCon false 0 65535)) T_SABP_IE.
(* src/sabp/SABP_Write-Replace-Failure.c:120-145 asn_DEF_SABP_Write_Replace_Failure *)
Definition T_SABP_Write_Replace_Failure : ty := TSeq true
    [(false, T_SABP_Write_Replace_Failure__write_Replace_Failure_ies_2)]
    [].
(* src/sabp/SABP_Write-Replace.c:67-92 asn_DEF_write_Replace_ies_2 *)
Definition T_SABP_Write_Replace__write_Replace_ies_2 : ty := TSeqOf (Some (mkCon false 0 65535)) T_SABP_IE.
(* src/sabp/SABP_Write-Replace.c:120-145 asn_DEF_SABP_Write_Replace *)
Definition T_SABP_Write_Replace : ty := TSeq true
    [(false, T_SABP_Write_Replace__write_Replace_ies_2)]
    [].

Local Open Scope string_scope.
(* all descriptors of src/sabp, each at the lines cited above *)
Definition sabp_types : list (string * ty) :=
  [ ("SABP_Available_Bandwidth", T_SABP_Available_Bandwidth);
    ("SABP_Broadcast_Message_Content_Validity_Indicator", T_SABP_Broadcast_Message_Content_Validity_Indicator);
    ("SABP_Broadcast_Message_Content", T_SABP_Broadcast_Message_Content);
    ("SABP_Category", T_SABP_Category);
    ("SABP_Cause", T_SABP_Cause);
    ("SABP_ProcedureCode", T_SABP_ProcedureCode);
    ("SABP_TriggeringMessage", T_SABP_TriggeringMessage);
    ("SABP_Criticality", T_SABP_Criticality);
    ("SABP_ProtocolIE_ID", T_SABP_ProtocolIE_ID);
    ("SABP_RepetitionNumber0", T_SABP_RepetitionNumber0);
    ("SABP_IE", T_SABP_IE);
    ("SABP_IE_Extensions", T_SABP_IE_Extensions);
    ("SABP_CriticalityDiagnostics_IE_List_Value", T_SABP_CriticalityDiagnostics_IE_List_Value);
    ("SABP_CriticalityDiagnostics_IE_List", T_SABP_CriticalityDiagnostics_IE_List);
    ("SABP_Criticality_Diagnostics", T_SABP_Criticality_Diagnostics);
    ("SABP_Data_Coding_Scheme", T_SABP_Data_Coding_Scheme);
    ("SABP_Error_Indication__error_Indication_ies_2", T_SABP_Error_Indication__error_Indication_ies_2);
    ("SABP_Error_Indication", T_SABP_Error_Indication);
    ("SABP_Service_Area_Identifier", T_SABP_Service_Area_Identifier);
    ("SABP_Failure_List_Item", T_SABP_Failure_List_Item);
    ("SABP_Failure_List", T_SABP_Failure_List);
    ("SABP_Failure__failure_ies_2", T_SABP_Failure__failure_ies_2);
    ("SABP_Failure", T_SABP_Failure);
    ("SABP_InitiatingMessage", T_SABP_InitiatingMessage);
    ("SABP_Kill_Complete__kill_Complete_ies_2", T_SABP_Kill_Complete__kill_Complete_ies_2);
    ("SABP_Kill_Complete", T_SABP_Kill_Complete);
    ("SABP_Kill_Failure__kill_Failure_ies_2", T_SABP_Kill_Failure__kill_Failure_ies_2);
    ("SABP_Kill_Failure", T_SABP_Kill_Failure);
    ("SABP_Kill__kill_ies_2", T_SABP_Kill__kill_ies_2);
    ("SABP_Kill", T_SABP_Kill);
    ("SABP_Load_Query_Complete__load_Query_Complete_ies_2", T_SABP_Load_Query_Complete__load_Query_Complete_ies_2);
    ("SABP_Load_Query_Complete", T_SABP_Load_Query_Complete);
    ("SABP_Load_Query_Failure__load_Query_Failure_ies_2", T_SABP_Load_Query_Failure__load_Query_Failure_ies_2);
    ("SABP_Load_Query_Failure", T_SABP_Load_Query_Failure);
    ("SABP_Load_Query__load_Query_ies_2", T_SABP_Load_Query__load_Query_ies_2);
    ("SABP_Load_Query", T_SABP_Load_Query);
    ("SABP_Message_Identifier", T_SABP_Message_Identifier);
    ("SABP_Message_Status_Query_Complete__message_Status_Query_Complete_ies_2", T_SABP_Message_Status_Query_Complete__message_Status_Query_Complete_ies_2);
    ("SABP_Message_Status_Query_Complete", T_SABP_Message_Status_Query_Complete);
    ("SABP_Message_Status_Query_Failure__message_Status_Query_Failure_ies_2", T_SABP_Message_Status_Query_Failure__message_Status_Query_Failure_ies_2);
    ("SABP_Message_Status_Query_Failure", T_SABP_Message_Status_Query_Failure);
    ("SABP_Message_Status_Query__message_Status_Query_ies_2", T_SABP_Message_Status_Query__message_Status_Query_ies_2);
    ("SABP_Message_Status_Query", T_SABP_Message_Status_Query);
    ("SABP_RepetitionNumber1", T_SABP_RepetitionNumber1);
    ("SABP_MessageStructure_Value", T_SABP_MessageStructure_Value);
    ("SABP_MessageStructure", T_SABP_MessageStructure);
    ("SABP_New_Serial_Number", T_SABP_New_Serial_Number);
    ("SABP_Number_Of_Broadcasts_Completed_Info", T_SABP_Number_Of_Broadcasts_Completed_Info);
    ("SABP_Number_of_Broadcasts_Completed_List_Item", T_SABP_Number_of_Broadcasts_Completed_List_Item);
    ("SABP_Number_of_Broadcasts_Completed_List", T_SABP_Number_of_Broadcasts_Completed_List);
    ("SABP_Number_of_Broadcasts_Requested", T_SABP_Number_of_Broadcasts_Requested);
    ("SABP_Old_Serial_Number", T_SABP_Old_Serial_Number);
    ("SABP_Paging_ETWS_Indicator", T_SABP_Paging_ETWS_Indicator);
    ("SABP_Presence", T_SABP_Presence);
    ("SABP_ProtocolExtensionID", T_SABP_ProtocolExtensionID);
    ("SABP_Radio_Resource_Loading_List_Item", T_SABP_Radio_Resource_Loading_List_Item);
    ("SABP_Radio_Resource_Loading_List", T_SABP_Radio_Resource_Loading_List);
    ("SABP_Recovery_Indication", T_SABP_Recovery_Indication);
    ("SABP_Repetition_Period", T_SABP_Repetition_Period);
    ("SABP_Reset_Complete__reset_Complete_ies_2", T_SABP_Reset_Complete__reset_Complete_ies_2);
    ("SABP_Reset_Complete", T_SABP_Reset_Complete);
    ("SABP_Reset_Failure__reset_Failure_ies_2", T_SABP_Reset_Failure__reset_Failure_ies_2);
    ("SABP_Reset_Failure", T_SABP_Reset_Failure);
    ("SABP_Reset__reset_ies_2", T_SABP_Reset__reset_ies_2);
    ("SABP_Reset", T_SABP_Reset);
    ("SABP_Restart__restart_ies_2", T_SABP_Restart__restart_ies_2);
    ("SABP_Restart", T_SABP_Restart);
    ("SABP_SuccessfulOutcome", T_SABP_SuccessfulOutcome);
    ("SABP_UnsuccessfulOutcome", T_SABP_UnsuccessfulOutcome);
    ("SABP_SABP_PDU", T_SABP_SABP_PDU);
    ("SABP_Serial_Number", T_SABP_Serial_Number);
    ("SABP_Service_Areas_List", T_SABP_Service_Areas_List);
    ("SABP_TypeOfError", T_SABP_TypeOfError);
    ("SABP_Warning_Type", T_SABP_Warning_Type);
    ("SABP_WarningSecurityInfo", T_SABP_WarningSecurityInfo);
    ("SABP_Write_Replace_Complete__write_Replace_Complete_ies_2", T_SABP_Write_Replace_Complete__write_Replace_Complete_ies_2);
    ("SABP_Write_Replace_Complete", T_SABP_Write_Replace_Complete);
    ("SABP_Write_Replace_Failure__write_Replace_Failure_ies_2", T_SABP_Write_Replace_Failure__write_Replace_Failure_ies_2);
    ("SABP_Write_Replace_Failure", T_SABP_Write_Replace_Failure);
    ("SABP_Write_Replace__write_Replace_ies_2", T_SABP_Write_Replace__write_Replace_ies_2);
    ("SABP_Write_Replace", T_SABP_Write_Replace) ].
