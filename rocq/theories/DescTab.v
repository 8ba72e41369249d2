(* Generated by a script from src/{ranap,rua,hnbap,sabp}/*.c as asn1c wrote them: of each type
   descriptor what concerns memory.  A static descriptor is named after its file as well. *)
From Verif Require Import Base CDecl.
From Coq Require Import String List.
Import ListNotations.
Local Open Scope string_scope.
Local Open Scope list_scope.
Local Open Scope N_scope.

Definition ranap_descs : list desc := [
  (* src/ranap/RANAP_APN.c:142-166 *)
  De "RANAP_APN" ["OCTET_STRING"; "OCTET_STRING"; "OCTET_STRING"; "OCTET_STRING"] (Cast "OCTET_STRING_t") [] (SpNone);
  (* src/ranap/RANAP_AccuracyFulfilmentIndicator.c:143-167 *)
  De "RANAP_AccuracyFulfilmentIndicator" ["NativeEnumerated"; "NativeEnumerated"; "NativeEnumerated"; "NativeEnumerated"] (Of "NativeEnumerated") [] (SpInt false);
  (* src/ranap/RANAP_AllocationOrRetentionPriority.c:78-103 *)
  De "RANAP_AllocationOrRetentionPriority" ["SEQUENCE"; "SEQUENCE"; "SEQUENCE"; "SEQUENCE"] (Of "SEQUENCE") [El false 0 "RANAP_AllocationOrRetentionPriority" ["priorityLevel"] "RANAP_PriorityLevel" "";
    El false 0 "RANAP_AllocationOrRetentionPriority" ["pre_emptionCapability"] "RANAP_Pre_emptionCapability" "";
    El false 0 "RANAP_AllocationOrRetentionPriority" ["pre_emptionVulnerability"] "RANAP_Pre_emptionVulnerability" "";
    El false 0 "RANAP_AllocationOrRetentionPriority" ["queuingAllowed"] "RANAP_QueuingAllowed" "";
    El true 1 "RANAP_AllocationOrRetentionPriority" ["iE_Extensions"] "RANAP_IE_Extensions" ""] (SpSeq "RANAP_AllocationOrRetentionPriority" ("RANAP_AllocationOrRetentionPriority", "_asn_ctx") [4] 1 0);
  (* src/ranap/RANAP_Alt-RAB-Parameter-ExtendedGuaranteedBitrateInf.c:48-73 *)
  De "RANAP_Alt_RAB_Parameter_ExtendedGuaranteedBitrateInf" ["SEQUENCE"; "SEQUENCE"; "SEQUENCE"; "SEQUENCE"] (Of "SEQUENCE") [El false 0 "RANAP_Alt_RAB_Parameter_ExtendedGuaranteedBitrateInf" ["altExtendedGuaranteedBitrateType"] "RANAP_Alt_RAB_Parameter_GuaranteedBitrateType" "";
    El true 1 "RANAP_Alt_RAB_Parameter_ExtendedGuaranteedBitrateInf" ["altExtendedGuaranteedBitrates"] "RANAP_Alt_RAB_Parameter_ExtendedGuaranteedBitrates" ""] (SpSeq "RANAP_Alt_RAB_Parameter_ExtendedGuaranteedBitrateInf" ("RANAP_Alt_RAB_Parameter_ExtendedGuaranteedBitrateInf", "_asn_ctx") [1] 1 0);
  (* src/ranap/RANAP_Alt-RAB-Parameter-ExtendedGuaranteedBitrateList.c:34-59 *)
  De "RANAP_Alt_RAB_Parameter_ExtendedGuaranteedBitrateList" ["SEQUENCE_OF"; "SEQUENCE_OF"; "SEQUENCE_OF"; "SEQUENCE_OF"] (Of "SEQUENCE_OF") [El true 0 "" [] "RANAP_ExtendedGuaranteedBitrate" ""] (SpList "RANAP_Alt_RAB_Parameter_ExtendedGuaranteedBitrateList" ("RANAP_Alt_RAB_Parameter_ExtendedGuaranteedBitrateList", "_asn_ctx"));
  (* src/ranap/RANAP_Alt-RAB-Parameter-ExtendedGuaranteedBitrates.c:34-59 *)
  De "RANAP_Alt_RAB_Parameter_ExtendedGuaranteedBitrates" ["SEQUENCE_OF"; "SEQUENCE_OF"; "SEQUENCE_OF"; "SEQUENCE_OF"] (Of "SEQUENCE_OF") [El true 0 "" [] "RANAP_Alt_RAB_Parameter_ExtendedGuaranteedBitrateList" ""] (SpList "RANAP_Alt_RAB_Parameter_ExtendedGuaranteedBitrates" ("RANAP_Alt_RAB_Parameter_ExtendedGuaranteedBitrates", "_asn_ctx"));
  (* src/ranap/RANAP_Alt-RAB-Parameter-ExtendedMaxBitrateInf.c:48-73 *)
  De "RANAP_Alt_RAB_Parameter_ExtendedMaxBitrateInf" ["SEQUENCE"; "SEQUENCE"; "SEQUENCE"; "SEQUENCE"] (Of "SEQUENCE") [El false 0 "RANAP_Alt_RAB_Parameter_ExtendedMaxBitrateInf" ["altExtendedMaxBitrateType"] "RANAP_Alt_RAB_Parameter_MaxBitrateType" "";
    El true 1 "RANAP_Alt_RAB_Parameter_ExtendedMaxBitrateInf" ["altExtendedMaxBitrates"] "RANAP_Alt_RAB_Parameter_ExtendedMaxBitrates" ""] (SpSeq "RANAP_Alt_RAB_Parameter_ExtendedMaxBitrateInf" ("RANAP_Alt_RAB_Parameter_ExtendedMaxBitrateInf", "_asn_ctx") [1] 1 0);
  (* src/ranap/RANAP_Alt-RAB-Parameter-ExtendedMaxBitrateList.c:34-59 *)
  De "RANAP_Alt_RAB_Parameter_ExtendedMaxBitrateList" ["SEQUENCE_OF"; "SEQUENCE_OF"; "SEQUENCE_OF"; "SEQUENCE_OF"] (Of "SEQUENCE_OF") [El true 0 "" [] "RANAP_ExtendedMaxBitrate" ""] (SpList "RANAP_Alt_RAB_Parameter_ExtendedMaxBitrateList" ("RANAP_Alt_RAB_Parameter_ExtendedMaxBitrateList", "_asn_ctx"));
  (* src/ranap/RANAP_Alt-RAB-Parameter-ExtendedMaxBitrates.c:34-59 *)
  De "RANAP_Alt_RAB_Parameter_ExtendedMaxBitrates" ["SEQUENCE_OF"; "SEQUENCE_OF"; "SEQUENCE_OF"; "SEQUENCE_OF"] (Of "SEQUENCE_OF") [El true 0 "" [] "RANAP_Alt_RAB_Parameter_ExtendedMaxBitrateList" ""] (SpList "RANAP_Alt_RAB_Parameter_ExtendedMaxBitrates" ("RANAP_Alt_RAB_Parameter_ExtendedMaxBitrates", "_asn_ctx"));
  (* src/ranap/RANAP_Alt-RAB-Parameter-GuaranteedBitrateInf.c:48-73 *)
  De "RANAP_Alt_RAB_Parameter_GuaranteedBitrateInf" ["SEQUENCE"; "SEQUENCE"; "SEQUENCE"; "SEQUENCE"] (Of "SEQUENCE") [El false 0 "RANAP_Alt_RAB_Parameter_GuaranteedBitrateInf" ["altGuaranteedBitrateType"] "RANAP_Alt_RAB_Parameter_GuaranteedBitrateType" "";
    El true 1 "RANAP_Alt_RAB_Parameter_GuaranteedBitrateInf" ["altGuaranteedBitrates"] "RANAP_Alt_RAB_Parameter_GuaranteedBitrates" ""] (SpSeq "RANAP_Alt_RAB_Parameter_GuaranteedBitrateInf" ("RANAP_Alt_RAB_Parameter_GuaranteedBitrateInf", "_asn_ctx") [1] 1 0);
  (* src/ranap/RANAP_Alt-RAB-Parameter-GuaranteedBitrateList.c:34-59 *)
  De "RANAP_Alt_RAB_Parameter_GuaranteedBitrateList" ["SEQUENCE_OF"; "SEQUENCE_OF"; "SEQUENCE_OF"; "SEQUENCE_OF"] (Of "SEQUENCE_OF") [El true 0 "" [] "RANAP_GuaranteedBitrate" ""] (SpList "RANAP_Alt_RAB_Parameter_GuaranteedBitrateList" ("RANAP_Alt_RAB_Parameter_GuaranteedBitrateList", "_asn_ctx"));
  (* src/ranap/RANAP_Alt-RAB-Parameter-GuaranteedBitrateType.c:145-169 *)
  De "RANAP_Alt_RAB_Parameter_GuaranteedBitrateType" ["NativeEnumerated"; "NativeEnumerated"; "NativeEnumerated"; "NativeEnumerated"] (Of "NativeEnumerated") [] (SpInt false);
  (* src/ranap/RANAP_Alt-RAB-Parameter-GuaranteedBitrates.c:34-59 *)
  De "RANAP_Alt_RAB_Parameter_GuaranteedBitrates" ["SEQUENCE_OF"; "SEQUENCE_OF"; "SEQUENCE_OF"; "SEQUENCE_OF"] (Of "SEQUENCE_OF") [El true 0 "" [] "RANAP_Alt_RAB_Parameter_GuaranteedBitrateList" ""] (SpList "RANAP_Alt_RAB_Parameter_GuaranteedBitrates" ("RANAP_Alt_RAB_Parameter_GuaranteedBitrates", "_asn_ctx"));
  (* src/ranap/RANAP_Alt-RAB-Parameter-MaxBitrateInf.c:48-73 *)
  De "RANAP_Alt_RAB_Parameter_MaxBitrateInf" ["SEQUENCE"; "SEQUENCE"; "SEQUENCE"; "SEQUENCE"] (Of "SEQUENCE") [El false 0 "RANAP_Alt_RAB_Parameter_MaxBitrateInf" ["altMaxBitrateType"] "RANAP_Alt_RAB_Parameter_MaxBitrateType" "";
    El true 1 "RANAP_Alt_RAB_Parameter_MaxBitrateInf" ["altMaxBitrates"] "RANAP_Alt_RAB_Parameter_MaxBitrates" ""] (SpSeq "RANAP_Alt_RAB_Parameter_MaxBitrateInf" ("RANAP_Alt_RAB_Parameter_MaxBitrateInf", "_asn_ctx") [1] 1 0);
  (* src/ranap/RANAP_Alt-RAB-Parameter-MaxBitrateList.c:34-59 *)
  De "RANAP_Alt_RAB_Parameter_MaxBitrateList" ["SEQUENCE_OF"; "SEQUENCE_OF"; "SEQUENCE_OF"; "SEQUENCE_OF"] (Of "SEQUENCE_OF") [El true 0 "" [] "RANAP_MaxBitrate" ""] (SpList "RANAP_Alt_RAB_Parameter_MaxBitrateList" ("RANAP_Alt_RAB_Parameter_MaxBitrateList", "_asn_ctx"));
  (* src/ranap/RANAP_Alt-RAB-Parameter-MaxBitrateType.c:145-169 *)
  De "RANAP_Alt_RAB_Parameter_MaxBitrateType" ["NativeEnumerated"; "NativeEnumerated"; "NativeEnumerated"; "NativeEnumerated"] (Of "NativeEnumerated") [] (SpInt false);
  (* src/ranap/RANAP_Alt-RAB-Parameter-MaxBitrates.c:34-59 *)
  De "RANAP_Alt_RAB_Parameter_MaxBitrates" ["SEQUENCE_OF"; "SEQUENCE_OF"; "SEQUENCE_OF"; "SEQUENCE_OF"] (Of "SEQUENCE_OF") [El true 0 "" [] "RANAP_Alt_RAB_Parameter_MaxBitrateList" ""] (SpList "RANAP_Alt_RAB_Parameter_MaxBitrates" ("RANAP_Alt_RAB_Parameter_MaxBitrates", "_asn_ctx"));
  (* src/ranap/RANAP_Alt-RAB-Parameter-SupportedGuaranteedBitrateInf.c:58-83 *)
  De "RANAP_Alt_RAB_Parameter_SupportedGuaranteedBitrateInf" ["SEQUENCE"; "SEQUENCE"; "SEQUENCE"; "SEQUENCE"] (Of "SEQUENCE") [El false 0 "RANAP_Alt_RAB_Parameter_SupportedGuaranteedBitrateInf" ["altSupportedGuaranteedBitrateType"] "RANAP_Alt_RAB_Parameter_GuaranteedBitrateType" "";
    El true 2 "RANAP_Alt_RAB_Parameter_SupportedGuaranteedBitrateInf" ["altSupportedGuaranteedBitrates"] "RANAP_Alt_RAB_Parameter_SupportedGuaranteedBitrates" "";
    El true 1 "RANAP_Alt_RAB_Parameter_SupportedGuaranteedBitrateInf" ["iE_Extensions"] "RANAP_IE_Extensions" ""] (SpSeq "RANAP_Alt_RAB_Parameter_SupportedGuaranteedBitrateInf" ("RANAP_Alt_RAB_Parameter_SupportedGuaranteedBitrateInf", "_asn_ctx") [1; 2] 2 0);
  (* src/ranap/RANAP_Alt-RAB-Parameter-SupportedGuaranteedBitrates.c:34-59 *)
  De "RANAP_Alt_RAB_Parameter_SupportedGuaranteedBitrates" ["SEQUENCE_OF"; "SEQUENCE_OF"; "SEQUENCE_OF"; "SEQUENCE_OF"] (Of "SEQUENCE_OF") [El true 0 "" [] "RANAP_SupportedRAB_ParameterBitrateList" ""] (SpList "RANAP_Alt_RAB_Parameter_SupportedGuaranteedBitrates" ("RANAP_Alt_RAB_Parameter_SupportedGuaranteedBitrates", "_asn_ctx"));
  (* src/ranap/RANAP_Alt-RAB-Parameter-SupportedMaxBitrateInf.c:58-83 *)
  De "RANAP_Alt_RAB_Parameter_SupportedMaxBitrateInf" ["SEQUENCE"; "SEQUENCE"; "SEQUENCE"; "SEQUENCE"] (Of "SEQUENCE") [El false 0 "RANAP_Alt_RAB_Parameter_SupportedMaxBitrateInf" ["altSupportedMaxBitrateType"] "RANAP_Alt_RAB_Parameter_MaxBitrateType" "";
    El true 2 "RANAP_Alt_RAB_Parameter_SupportedMaxBitrateInf" ["altSupportedMaxBitrates"] "RANAP_Alt_RAB_Parameter_SupportedMaxBitrates" "";
    El true 1 "RANAP_Alt_RAB_Parameter_SupportedMaxBitrateInf" ["iE_Extensions"] "RANAP_IE_Extensions" ""] (SpSeq "RANAP_Alt_RAB_Parameter_SupportedMaxBitrateInf" ("RANAP_Alt_RAB_Parameter_SupportedMaxBitrateInf", "_asn_ctx") [1; 2] 2 0);
  (* src/ranap/RANAP_Alt-RAB-Parameter-SupportedMaxBitrates.c:34-59 *)
  De "RANAP_Alt_RAB_Parameter_SupportedMaxBitrates" ["SEQUENCE_OF"; "SEQUENCE_OF"; "SEQUENCE_OF"; "SEQUENCE_OF"] (Of "SEQUENCE_OF") [El true 0 "" [] "RANAP_SupportedRAB_ParameterBitrateList" ""] (SpList "RANAP_Alt_RAB_Parameter_SupportedMaxBitrates" ("RANAP_Alt_RAB_Parameter_SupportedMaxBitrates", "_asn_ctx"));
  (* src/ranap/RANAP_Alt-RAB-Parameters.c:58-83 *)
  De "RANAP_Alt_RAB_Parameters" ["SEQUENCE"; "SEQUENCE"; "SEQUENCE"; "SEQUENCE"] (Of "SEQUENCE") [El true 3 "RANAP_Alt_RAB_Parameters" ["altMaxBitrateInf"] "RANAP_Alt_RAB_Parameter_MaxBitrateInf" "";
    El true 2 "RANAP_Alt_RAB_Parameters" ["altGuaranteedBitRateInf"] "RANAP_Alt_RAB_Parameter_GuaranteedBitrateInf" "";
    El true 1 "RANAP_Alt_RAB_Parameters" ["iE_Extensions"] "RANAP_IE_Extensions" ""] (SpSeq "RANAP_Alt_RAB_Parameters" ("RANAP_Alt_RAB_Parameters", "_asn_ctx") [0; 1; 2] 3 0);
  (* src/ranap/RANAP_AlternativeRABConfigurationRequest.c:141-165 *)
  De "RANAP_AlternativeRABConfigurationRequest" ["NativeEnumerated"; "NativeEnumerated"; "NativeEnumerated"; "NativeEnumerated"] (Of "NativeEnumerated") [] (SpInt false);
  (* src/ranap/RANAP_AreaIdentity.c:49-72 *)
  De "RANAP_AreaIdentity" ["CHOICE"; "CHOICE"; "CHOICE"; "CHOICE"] (Of "CHOICE") [El false 0 "RANAP_AreaIdentity" ["choice"; "sAI"] "RANAP_SAI" "";
    El false 0 "RANAP_AreaIdentity" ["choice"; "geographicalArea"] "RANAP_GeographicalArea" ""] (SpChoice "RANAP_AreaIdentity" ("RANAP_AreaIdentity", "_asn_ctx") ("RANAP_AreaIdentity", "present") ("RANAP_AreaIdentity", "present"));
  (* src/ranap/RANAP_Ass-RAB-Parameter-ExtendedGuaranteedBitrateList.c:34-59 *)
  De "RANAP_Ass_RAB_Parameter_ExtendedGuaranteedBitrateList" ["SEQUENCE_OF"; "SEQUENCE_OF"; "SEQUENCE_OF"; "SEQUENCE_OF"] (Of "SEQUENCE_OF") [El true 0 "" [] "RANAP_ExtendedGuaranteedBitrate" ""] (SpList "RANAP_Ass_RAB_Parameter_ExtendedGuaranteedBitrateList" ("RANAP_Ass_RAB_Parameter_ExtendedGuaranteedBitrateList", "_asn_ctx"));
  (* src/ranap/RANAP_Ass-RAB-Parameter-ExtendedMaxBitrateList.c:34-59 *)
  De "RANAP_Ass_RAB_Parameter_ExtendedMaxBitrateList" ["SEQUENCE_OF"; "SEQUENCE_OF"; "SEQUENCE_OF"; "SEQUENCE_OF"] (Of "SEQUENCE_OF") [El true 0 "" [] "RANAP_ExtendedMaxBitrate" ""] (SpList "RANAP_Ass_RAB_Parameter_ExtendedMaxBitrateList" ("RANAP_Ass_RAB_Parameter_ExtendedMaxBitrateList", "_asn_ctx"));
  (* src/ranap/RANAP_Ass-RAB-Parameter-GuaranteedBitrateList.c:34-59 *)
  De "RANAP_Ass_RAB_Parameter_GuaranteedBitrateList" ["SEQUENCE_OF"; "SEQUENCE_OF"; "SEQUENCE_OF"; "SEQUENCE_OF"] (Of "SEQUENCE_OF") [El true 0 "" [] "RANAP_GuaranteedBitrate" ""] (SpList "RANAP_Ass_RAB_Parameter_GuaranteedBitrateList" ("RANAP_Ass_RAB_Parameter_GuaranteedBitrateList", "_asn_ctx"));
  (* src/ranap/RANAP_Ass-RAB-Parameter-MaxBitrateList.c:34-59 *)
  De "RANAP_Ass_RAB_Parameter_MaxBitrateList" ["SEQUENCE_OF"; "SEQUENCE_OF"; "SEQUENCE_OF"; "SEQUENCE_OF"] (Of "SEQUENCE_OF") [El true 0 "" [] "RANAP_MaxBitrate" ""] (SpList "RANAP_Ass_RAB_Parameter_MaxBitrateList" ("RANAP_Ass_RAB_Parameter_MaxBitrateList", "_asn_ctx"));
  (* src/ranap/RANAP_Ass-RAB-Parameters.c:58-83 *)
  De "RANAP_Ass_RAB_Parameters" ["SEQUENCE"; "SEQUENCE"; "SEQUENCE"; "SEQUENCE"] (Of "SEQUENCE") [El true 3 "RANAP_Ass_RAB_Parameters" ["assMaxBitrateInf"] "RANAP_Ass_RAB_Parameter_MaxBitrateList" "";
    El true 2 "RANAP_Ass_RAB_Parameters" ["assGuaranteedBitRateInf"] "RANAP_Ass_RAB_Parameter_GuaranteedBitrateList" "";
    El true 1 "RANAP_Ass_RAB_Parameters" ["iE_Extensions"] "RANAP_IE_Extensions" ""] (SpSeq "RANAP_Ass_RAB_Parameters" ("RANAP_Ass_RAB_Parameters", "_asn_ctx") [0; 1; 2] 3 0);
  (* src/ranap/RANAP_AuthorisedPLMNs-Value.c:58-83 *)
  De "RANAP_AuthorisedPLMNs_Value" ["SEQUENCE"; "SEQUENCE"; "SEQUENCE"; "SEQUENCE"] (Of "SEQUENCE") [El false 0 "RANAP_AuthorisedPLMNs_Value" ["pLMNidentity"] "RANAP_PLMNidentity" "";
    El true 2 "RANAP_AuthorisedPLMNs_Value" ["authorisedSNAsList"] "RANAP_AuthorisedSNAs" "";
    El true 1 "RANAP_AuthorisedPLMNs_Value" ["iE_Extensions"] "RANAP_IE_Extensions" ""] (SpSeq "RANAP_AuthorisedPLMNs_Value" ("RANAP_AuthorisedPLMNs_Value", "_asn_ctx") [1; 2] 2 0);
  (* src/ranap/RANAP_AuthorisedPLMNs.c:34-59 *)
  De "RANAP_AuthorisedPLMNs" ["SEQUENCE_OF"; "SEQUENCE_OF"; "SEQUENCE_OF"; "SEQUENCE_OF"] (Of "SEQUENCE_OF") [El true 0 "" [] "RANAP_AuthorisedPLMNs_Value" ""] (SpList "RANAP_AuthorisedPLMNs" ("RANAP_AuthorisedPLMNs", "_asn_ctx"));
  (* src/ranap/RANAP_AuthorisedSNAs.c:34-59 *)
  De "RANAP_AuthorisedSNAs" ["SEQUENCE_OF"; "SEQUENCE_OF"; "SEQUENCE_OF"; "SEQUENCE_OF"] (Of "SEQUENCE_OF") [El true 0 "" [] "RANAP_SNAC" ""] (SpList "RANAP_AuthorisedSNAs" ("RANAP_AuthorisedSNAs", "_asn_ctx"));
  (* src/ranap/RANAP_BindingID.c:142-166 *)
  De "RANAP_BindingID" ["OCTET_STRING"; "OCTET_STRING"; "OCTET_STRING"; "OCTET_STRING"] (Cast "OCTET_STRING_t") [] (SpNone);
  (* src/ranap/RANAP_BroadcastAssistanceDataDecipheringKeys.c:164-189 *)
  De "RANAP_BroadcastAssistanceDataDecipheringKeys" ["SEQUENCE"; "SEQUENCE"; "SEQUENCE"; "SEQUENCE"] (Of "SEQUENCE") [El false 0 "RANAP_BroadcastAssistanceDataDecipheringKeys" ["cipheringKeyFlag"] "BIT_STRING" "BIT_STRING_t";
    El false 0 "RANAP_BroadcastAssistanceDataDecipheringKeys" ["currentDecipheringKey"] "BIT_STRING" "BIT_STRING_t";
    El false 0 "RANAP_BroadcastAssistanceDataDecipheringKeys" ["nextDecipheringKey"] "BIT_STRING" "BIT_STRING_t"] (SpSeq "RANAP_BroadcastAssistanceDataDecipheringKeys" ("RANAP_BroadcastAssistanceDataDecipheringKeys", "_asn_ctx") [] 0 0);
  (* src/ranap/RANAP_CGI.c:68-93 *)
  De "RANAP_CGI" ["SEQUENCE"; "SEQUENCE"; "SEQUENCE"; "SEQUENCE"] (Of "SEQUENCE") [El false 0 "RANAP_CGI" ["pLMNidentity"] "RANAP_PLMNidentity" "";
    El false 0 "RANAP_CGI" ["lAC"] "RANAP_LAC" "";
    El false 0 "RANAP_CGI" ["cI"] "RANAP_CI" "";
    El true 1 "RANAP_CGI" ["iE_Extensions"] "RANAP_IE_Extensions" ""] (SpSeq "RANAP_CGI" ("RANAP_CGI", "_asn_ctx") [3] 1 0);
  (* src/ranap/RANAP_CI.c:142-166 *)
  De "RANAP_CI" ["OCTET_STRING"; "OCTET_STRING"; "OCTET_STRING"; "OCTET_STRING"] (Cast "OCTET_STRING_t") [] (SpNone);
  (* src/ranap/RANAP_CN-DeactivateTrace.c:66-92 *)
  De "RANAP_CN-DeactivateTrace:cN_DeactivateTrace_ies_2" ["SEQUENCE_OF"; "SEQUENCE_OF"; "SEQUENCE_OF"; "SEQUENCE_OF"] (Of "SEQUENCE_OF") [El true 0 "" [] "RANAP_IE" ""] (SpList "RANAP_CN_DeactivateTrace__cN_DeactivateTrace_ies" ("RANAP_CN_DeactivateTrace__cN_DeactivateTrace_ies", "_asn_ctx"));
  (* src/ranap/RANAP_CN-DeactivateTrace.c:120-145 *)
  De "RANAP_CN_DeactivateTrace" ["SEQUENCE"; "SEQUENCE"; "SEQUENCE"; "SEQUENCE"] (Of "SEQUENCE") [El false 0 "RANAP_CN_DeactivateTrace" ["cN_DeactivateTrace_ies"] "RANAP_CN-DeactivateTrace:cN_DeactivateTrace_ies_2" "A_SEQUENCE_OF"] (SpSeq "RANAP_CN_DeactivateTrace" ("RANAP_CN_DeactivateTrace", "_asn_ctx") [] 0 0);
  (* src/ranap/RANAP_CN-DomainIndicator.c:141-165 *)
  De "RANAP_CN_DomainIndicator" ["NativeEnumerated"; "NativeEnumerated"; "NativeEnumerated"; "NativeEnumerated"] (Of "NativeEnumerated") [] (SpInt false);
  (* src/ranap/RANAP_CN-ID.c:141-165 *)
  De "RANAP_CN_ID" ["NativeInteger"; "NativeInteger"; "NativeInteger"; "NativeInteger"] (Cast "long") [] (SpNone);
  (* src/ranap/RANAP_CN-InvokeTrace.c:66-92 *)
  De "RANAP_CN-InvokeTrace:cN_InvokeTrace_ies_2" ["SEQUENCE_OF"; "SEQUENCE_OF"; "SEQUENCE_OF"; "SEQUENCE_OF"] (Of "SEQUENCE_OF") [El true 0 "" [] "RANAP_IE" ""] (SpList "RANAP_CN_InvokeTrace__cN_InvokeTrace_ies" ("RANAP_CN_InvokeTrace__cN_InvokeTrace_ies", "_asn_ctx"));
  (* src/ranap/RANAP_CN-InvokeTrace.c:120-145 *)
  De "RANAP_CN_InvokeTrace" ["SEQUENCE"; "SEQUENCE"; "SEQUENCE"; "SEQUENCE"] (Of "SEQUENCE") [El false 0 "RANAP_CN_InvokeTrace" ["cN_InvokeTrace_ies"] "RANAP_CN-InvokeTrace:cN_InvokeTrace_ies_2" "A_SEQUENCE_OF"] (SpSeq "RANAP_CN_InvokeTrace" ("RANAP_CN_InvokeTrace", "_asn_ctx") [] 0 0);
  (* src/ranap/RANAP_CNMBMSLinkingInformation.c:48-73 *)
  De "RANAP_CNMBMSLinkingInformation" ["SEQUENCE"; "SEQUENCE"; "SEQUENCE"; "SEQUENCE"] (Of "SEQUENCE") [El false 0 "RANAP_CNMBMSLinkingInformation" ["joinedMBMSBearerService_IEs"] "RANAP_JoinedMBMSBearerService_IEs" "";
    El true 1 "RANAP_CNMBMSLinkingInformation" ["iE_Extensions"] "RANAP_ProtocolExtensionContainer" ""] (SpSeq "RANAP_CNMBMSLinkingInformation" ("RANAP_CNMBMSLinkingInformation", "_asn_ctx") [1] 1 0);
  (* src/ranap/RANAP_CSFB-Information.c:143-167 *)
  De "RANAP_CSFB_Information" ["NativeEnumerated"; "NativeEnumerated"; "NativeEnumerated"; "NativeEnumerated"] (Of "NativeEnumerated") [] (SpInt false);
  (* src/ranap/RANAP_CSG-Id-List.c:34-59 *)
  De "RANAP_CSG_Id_List" ["SEQUENCE_OF"; "SEQUENCE_OF"; "SEQUENCE_OF"; "SEQUENCE_OF"] (Of "SEQUENCE_OF") [El true 0 "" [] "RANAP_CSG_Id" ""] (SpList "RANAP_CSG_Id_List" ("RANAP_CSG_Id_List", "_asn_ctx"));
  (* src/ranap/RANAP_CSG-Id.c:147-171 *)
  De "RANAP_CSG_Id" ["BIT_STRING"; "BIT_STRING"; "BIT_STRING"; "BIT_STRING"] (Cast "BIT_STRING_t") [] (SpNone);
  (* src/ranap/RANAP_CSG-Membership-Status.c:143-167 *)
  De "RANAP_CSG_Membership_Status" ["NativeEnumerated"; "NativeEnumerated"; "NativeEnumerated"; "NativeEnumerated"] (Of "NativeEnumerated") [] (SpInt false);
  (* src/ranap/RANAP_Cause.c:99-122 *)
  De "RANAP_Cause" ["CHOICE"; "CHOICE"; "CHOICE"; "CHOICE"] (Of "CHOICE") [El false 0 "RANAP_Cause" ["choice"; "radioNetwork"] "RANAP_CauseRadioNetwork" "";
    El false 0 "RANAP_Cause" ["choice"; "transmissionNetwork"] "RANAP_CauseTransmissionNetwork" "";
    El false 0 "RANAP_Cause" ["choice"; "nAS"] "RANAP_CauseNAS" "";
    El false 0 "RANAP_Cause" ["choice"; "protocol"] "RANAP_CauseProtocol" "";
    El false 0 "RANAP_Cause" ["choice"; "misc"] "RANAP_CauseMisc" "";
    El false 0 "RANAP_Cause" ["choice"; "non_Standard"] "RANAP_CauseNon_Standard" "";
    El false 0 "RANAP_Cause" ["choice"; "radioNetworkExtension"] "RANAP_CauseRadioNetworkExtension" ""] (SpChoice "RANAP_Cause" ("RANAP_Cause", "_asn_ctx") ("RANAP_Cause", "present") ("RANAP_Cause", "present"));
  (* src/ranap/RANAP_CauseMisc.c:141-165 *)
  De "RANAP_CauseMisc" ["NativeInteger"; "NativeInteger"; "NativeInteger"; "NativeInteger"] (Cast "long") [] (SpNone);
  (* src/ranap/RANAP_CauseNAS.c:141-165 *)
  De "RANAP_CauseNAS" ["NativeInteger"; "NativeInteger"; "NativeInteger"; "NativeInteger"] (Cast "long") [] (SpNone);
  (* src/ranap/RANAP_CauseNon-Standard.c:141-165 *)
  De "RANAP_CauseNon_Standard" ["NativeInteger"; "NativeInteger"; "NativeInteger"; "NativeInteger"] (Cast "long") [] (SpNone);
  (* src/ranap/RANAP_CauseProtocol.c:141-165 *)
  De "RANAP_CauseProtocol" ["NativeInteger"; "NativeInteger"; "NativeInteger"; "NativeInteger"] (Cast "long") [] (SpNone);
  (* src/ranap/RANAP_CauseRadioNetwork.c:141-165 *)
  De "RANAP_CauseRadioNetwork" ["NativeInteger"; "NativeInteger"; "NativeInteger"; "NativeInteger"] (Cast "long") [] (SpNone);
  (* src/ranap/RANAP_CauseRadioNetworkExtension.c:141-165 *)
  De "RANAP_CauseRadioNetworkExtension" ["NativeInteger"; "NativeInteger"; "NativeInteger"; "NativeInteger"] (Cast "long") [] (SpNone);
  (* src/ranap/RANAP_CauseTransmissionNetwork.c:141-165 *)
  De "RANAP_CauseTransmissionNetwork" ["NativeInteger"; "NativeInteger"; "NativeInteger"; "NativeInteger"] (Cast "long") [] (SpNone);
  (* src/ranap/RANAP_Cell-Access-Mode.c:141-165 *)
  De "RANAP_Cell_Access_Mode" ["NativeEnumerated"; "NativeEnumerated"; "NativeEnumerated"; "NativeEnumerated"] (Of "NativeEnumerated") [] (SpInt false);
  (* src/ranap/RANAP_Cell-Capacity-Class-Value.c:141-165 *)
  De "RANAP_Cell_Capacity_Class_Value" ["NativeInteger"; "NativeInteger"; "NativeInteger"; "NativeInteger"] (Cast "long") [] (SpNone);
  (* src/ranap/RANAP_Cell-Id.c:141-165 *)
  De "RANAP_Cell_Id" ["NativeInteger"; "NativeInteger"; "NativeInteger"; "NativeInteger"] (Cast "long") [] (SpNone);
  (* src/ranap/RANAP_CellBased.c:48-73 *)
  De "RANAP_CellBased" ["SEQUENCE"; "SEQUENCE"; "SEQUENCE"; "SEQUENCE"] (Of "SEQUENCE") [El false 0 "RANAP_CellBased" ["cellIdList"] "RANAP_CellIdList" "";
    El true 1 "RANAP_CellBased" ["iE_Extensions"] "RANAP_IE_Extensions" ""] (SpSeq "RANAP_CellBased" ("RANAP_CellBased", "_asn_ctx") [1] 1 0);
  (* src/ranap/RANAP_CellIdList.c:34-59 *)
  De "RANAP_CellIdList" ["SEQUENCE_OF"; "SEQUENCE_OF"; "SEQUENCE_OF"; "SEQUENCE_OF"] (Of "SEQUENCE_OF") [El true 0 "" [] "RANAP_Cell_Id" ""] (SpList "RANAP_CellIdList" ("RANAP_CellIdList", "_asn_ctx"));
  (* src/ranap/RANAP_CellLoadInformation.c:78-103 *)
  De "RANAP_CellLoadInformation" ["SEQUENCE"; "SEQUENCE"; "SEQUENCE"; "SEQUENCE"] (Of "SEQUENCE") [El false 0 "RANAP_CellLoadInformation" ["cell_Capacity_Class_Value"] "RANAP_Cell_Capacity_Class_Value" "";
    El false 0 "RANAP_CellLoadInformation" ["loadValue"] "RANAP_LoadValue" "";
    El true 3 "RANAP_CellLoadInformation" ["rTLoadValue"] "RANAP_RTLoadValue" "";
    El true 2 "RANAP_CellLoadInformation" ["nRTLoadInformationValue"] "RANAP_NRTLoadInformationValue" "";
    El true 1 "RANAP_CellLoadInformation" ["iE_Extensions"] "RANAP_IE_Extensions" ""] (SpSeq "RANAP_CellLoadInformation" ("RANAP_CellLoadInformation", "_asn_ctx") [2; 3; 4] 3 0);
  (* src/ranap/RANAP_CellLoadInformationGroup.c:68-93 *)
  De "RANAP_CellLoadInformationGroup" ["SEQUENCE"; "SEQUENCE"; "SEQUENCE"; "SEQUENCE"] (Of "SEQUENCE") [El false 0 "RANAP_CellLoadInformationGroup" ["sourceCellID"] "RANAP_SourceCellID" "";
    El true 3 "RANAP_CellLoadInformationGroup" ["uplinkCellLoadInformation"] "RANAP_CellLoadInformation" "";
    El true 2 "RANAP_CellLoadInformationGroup" ["downlinkCellLoadInformation"] "RANAP_CellLoadInformation" "";
    El true 1 "RANAP_CellLoadInformationGroup" ["iE_Extensions"] "RANAP_IE_Extensions" ""] (SpSeq "RANAP_CellLoadInformationGroup" ("RANAP_CellLoadInformationGroup", "_asn_ctx") [1; 2; 3] 3 0);
  (* src/ranap/RANAP_CellType.c:147-171 *)
  De "RANAP_CellType" ["NativeEnumerated"; "NativeEnumerated"; "NativeEnumerated"; "NativeEnumerated"] (Of "NativeEnumerated") [] (SpInt false);
  (* src/ranap/RANAP_ChosenEncryptionAlgorithm.c:135-157 *)
  De "RANAP_ChosenEncryptionAlgorithm" ["RANAP_EncryptionAlgorithm"; "RANAP_EncryptionAlgorithm"; "RANAP_EncryptionAlgorithm"; "RANAP_EncryptionAlgorithm"] (Of "RANAP_EncryptionAlgorithm") [] (SpNone);
  (* src/ranap/RANAP_ChosenIntegrityProtectionAlgorithm.c:135-157 *)
  De "RANAP_ChosenIntegrityProtectionAlgorithm" ["RANAP_IntegrityProtectionAlgorithm"; "RANAP_IntegrityProtectionAlgorithm"; "RANAP_IntegrityProtectionAlgorithm"; "RANAP_IntegrityProtectionAlgorithm"] (Of "RANAP_IntegrityProtectionAlgorithm") [] (SpNone);
  (* src/ranap/RANAP_ClassmarkInformation2.c:119-143 *)
  De "RANAP_ClassmarkInformation2" ["OCTET_STRING"; "OCTET_STRING"; "OCTET_STRING"; "OCTET_STRING"] (Of "OCTET_STRING") [] (SpNone);
  (* src/ranap/RANAP_ClassmarkInformation3.c:119-143 *)
  De "RANAP_ClassmarkInformation3" ["OCTET_STRING"; "OCTET_STRING"; "OCTET_STRING"; "OCTET_STRING"] (Of "OCTET_STRING") [] (SpNone);
  (* src/ranap/RANAP_ClientType.c:155-179 *)
  De "RANAP_ClientType" ["NativeEnumerated"; "NativeEnumerated"; "NativeEnumerated"; "NativeEnumerated"] (Of "NativeEnumerated") [] (SpInt false);
  (* src/ranap/RANAP_CommonID.c:66-92 *)
  De "RANAP_CommonID:commonID_ies_2" ["SEQUENCE_OF"; "SEQUENCE_OF"; "SEQUENCE_OF"; "SEQUENCE_OF"] (Of "SEQUENCE_OF") [El true 0 "" [] "RANAP_IE" ""] (SpList "RANAP_CommonID__commonID_ies" ("RANAP_CommonID__commonID_ies", "_asn_ctx"));
  (* src/ranap/RANAP_CommonID.c:120-145 *)
  De "RANAP_CommonID" ["SEQUENCE"; "SEQUENCE"; "SEQUENCE"; "SEQUENCE"] (Of "SEQUENCE") [El false 0 "RANAP_CommonID" ["commonID_ies"] "RANAP_CommonID:commonID_ies_2" "A_SEQUENCE_OF"] (SpSeq "RANAP_CommonID" ("RANAP_CommonID", "_asn_ctx") [] 0 0);
  (* src/ranap/RANAP_Correlation-ID.c:142-166 *)
  De "RANAP_Correlation_ID" ["OCTET_STRING"; "OCTET_STRING"; "OCTET_STRING"; "OCTET_STRING"] (Cast "OCTET_STRING_t") [] (SpNone);
  (* src/ranap/RANAP_Criticality.c:143-167 *)
  De "RANAP_Criticality" ["NativeEnumerated"; "NativeEnumerated"; "NativeEnumerated"; "NativeEnumerated"] (Of "NativeEnumerated") [] (SpInt false);
  (* src/ranap/RANAP_CriticalityDiagnostics-IE-List-Value.c:68-93 *)
  De "RANAP_CriticalityDiagnostics_IE_List_Value" ["SEQUENCE"; "SEQUENCE"; "SEQUENCE"; "SEQUENCE"] (Of "SEQUENCE") [El false 0 "RANAP_CriticalityDiagnostics_IE_List_Value" ["iECriticality"] "RANAP_Criticality" "";
    El false 0 "RANAP_CriticalityDiagnostics_IE_List_Value" ["iE_ID"] "RANAP_ProtocolIE_ID" "";
    El true 2 "RANAP_CriticalityDiagnostics_IE_List_Value" ["repetitionNumber"] "RANAP_RepetitionNumber0" "";
    El true 1 "RANAP_CriticalityDiagnostics_IE_List_Value" ["iE_Extensions"] "RANAP_IE_Extensions" ""] (SpSeq "RANAP_CriticalityDiagnostics_IE_List_Value" ("RANAP_CriticalityDiagnostics_IE_List_Value", "_asn_ctx") [2; 3] 2 0);
  (* src/ranap/RANAP_CriticalityDiagnostics-IE-List.c:34-59 *)
  De "RANAP_CriticalityDiagnostics_IE_List" ["SEQUENCE_OF"; "SEQUENCE_OF"; "SEQUENCE_OF"; "SEQUENCE_OF"] (Of "SEQUENCE_OF") [El true 0 "" [] "RANAP_CriticalityDiagnostics_IE_List_Value" ""] (SpList "RANAP_CriticalityDiagnostics_IE_List" ("RANAP_CriticalityDiagnostics_IE_List", "_asn_ctx"));
  (* src/ranap/RANAP_CriticalityDiagnostics.c:78-103 *)
  De "RANAP_CriticalityDiagnostics" ["SEQUENCE"; "SEQUENCE"; "SEQUENCE"; "SEQUENCE"] (Of "SEQUENCE") [El true 5 "RANAP_CriticalityDiagnostics" ["procedureCode"] "RANAP_ProcedureCode" "";
    El true 4 "RANAP_CriticalityDiagnostics" ["triggeringMessage"] "RANAP_TriggeringMessage" "";
    El true 3 "RANAP_CriticalityDiagnostics" ["procedureCriticality"] "RANAP_Criticality" "";
    El true 2 "RANAP_CriticalityDiagnostics" ["iEsCriticalityDiagnostics"] "RANAP_CriticalityDiagnostics_IE_List" "";
    El true 1 "RANAP_CriticalityDiagnostics" ["iE_Extensions"] "RANAP_IE_Extensions" ""] (SpSeq "RANAP_CriticalityDiagnostics" ("RANAP_CriticalityDiagnostics", "_asn_ctx") [0; 1; 2; 3; 4] 5 0);
  (* src/ranap/RANAP_D-RNTI.c:141-165 *)
  De "RANAP_D_RNTI" ["NativeInteger"; "NativeInteger"; "NativeInteger"; "NativeInteger"] (Cast "long") [] (SpNone);
  (* src/ranap/RANAP_DCH-ID.c:141-165 *)
  De "RANAP_DCH_ID" ["NativeInteger"; "NativeInteger"; "NativeInteger"; "NativeInteger"] (Cast "long") [] (SpNone);
  (* src/ranap/RANAP_DL-GTP-PDU-SequenceNumber.c:141-165 *)
  De "RANAP_DL_GTP_PDU_SequenceNumber" ["NativeInteger"; "NativeInteger"; "NativeInteger"; "NativeInteger"] (Cast "long") [] (SpNone);
  (* src/ranap/RANAP_DL-N-PDU-SequenceNumber.c:141-165 *)
  De "RANAP_DL_N_PDU_SequenceNumber" ["NativeInteger"; "NativeInteger"; "NativeInteger"; "NativeInteger"] (Cast "long") [] (SpNone);
  (* src/ranap/RANAP_DRX-CycleLengthCoefficient.c:141-165 *)
  De "RANAP_DRX_CycleLengthCoefficient" ["NativeInteger"; "NativeInteger"; "NativeInteger"; "NativeInteger"] (Cast "long") [] (SpNone);
  (* src/ranap/RANAP_DSCH-ID.c:141-165 *)
  De "RANAP_DSCH_ID" ["NativeInteger"; "NativeInteger"; "NativeInteger"; "NativeInteger"] (Cast "long") [] (SpNone);
  (* src/ranap/RANAP_DataPDUType.c:143-167 *)
  De "RANAP_DataPDUType" ["NativeEnumerated"; "NativeEnumerated"; "NativeEnumerated"; "NativeEnumerated"] (Of "NativeEnumerated") [] (SpInt false);
  (* src/ranap/RANAP_DataVolumeList-Value.c:58-83 *)
  De "RANAP_DataVolumeList_Value" ["SEQUENCE"; "SEQUENCE"; "SEQUENCE"; "SEQUENCE"] (Of "SEQUENCE") [El false 0 "RANAP_DataVolumeList_Value" ["dl_UnsuccessfullyTransmittedDataVolume"] "RANAP_UnsuccessfullyTransmittedDataVolume" "";
    El true 2 "RANAP_DataVolumeList_Value" ["dataVolumeReference"] "RANAP_DataVolumeReference" "";
    El true 1 "RANAP_DataVolumeList_Value" ["iE_Extensions"] "RANAP_ProtocolExtensionContainer" ""] (SpSeq "RANAP_DataVolumeList_Value" ("RANAP_DataVolumeList_Value", "_asn_ctx") [1; 2] 2 0);
  (* src/ranap/RANAP_DataVolumeList.c:34-59 *)
  De "RANAP_DataVolumeList" ["SEQUENCE_OF"; "SEQUENCE_OF"; "SEQUENCE_OF"; "SEQUENCE_OF"] (Of "SEQUENCE_OF") [El true 0 "" [] "RANAP_DataVolumeList_Value" ""] (SpList "RANAP_DataVolumeList" ("RANAP_DataVolumeList", "_asn_ctx"));
  (* src/ranap/RANAP_DataVolumeReference.c:141-165 *)
  De "RANAP_DataVolumeReference" ["NativeInteger"; "NativeInteger"; "NativeInteger"; "NativeInteger"] (Cast "long") [] (SpNone);
  (* src/ranap/RANAP_DataVolumeReport.c:66-92 *)
  De "RANAP_DataVolumeReport:dataVolumeReport_ies_2" ["SEQUENCE_OF"; "SEQUENCE_OF"; "SEQUENCE_OF"; "SEQUENCE_OF"] (Of "SEQUENCE_OF") [El true 0 "" [] "RANAP_IE" ""] (SpList "RANAP_DataVolumeReport__dataVolumeReport_ies" ("RANAP_DataVolumeReport__dataVolumeReport_ies", "_asn_ctx"));
  (* src/ranap/RANAP_DataVolumeReport.c:120-145 *)
  De "RANAP_DataVolumeReport" ["SEQUENCE"; "SEQUENCE"; "SEQUENCE"; "SEQUENCE"] (Of "SEQUENCE") [El false 0 "RANAP_DataVolumeReport" ["dataVolumeReport_ies"] "RANAP_DataVolumeReport:dataVolumeReport_ies_2" "A_SEQUENCE_OF"] (SpSeq "RANAP_DataVolumeReport" ("RANAP_DataVolumeReport", "_asn_ctx") [] 0 0);
  (* src/ranap/RANAP_DataVolumeReportList.c:66-92 *)
  De "RANAP_DataVolumeReportList:dataVolumeReportListe_ies_2" ["SEQUENCE_OF"; "SEQUENCE_OF"; "SEQUENCE_OF"; "SEQUENCE_OF"] (Of "SEQUENCE_OF") [El true 0 "" [] "RANAP_IE" ""] (SpList "RANAP_DataVolumeReportList__dataVolumeReportListe_ies" ("RANAP_DataVolumeReportList__dataVolumeReportListe_ies", "_asn_ctx"));
  (* src/ranap/RANAP_DataVolumeReportList.c:120-145 *)
  De "RANAP_DataVolumeReportList" ["SEQUENCE"; "SEQUENCE"; "SEQUENCE"; "SEQUENCE"] (Of "SEQUENCE") [El false 0 "RANAP_DataVolumeReportList" ["dataVolumeReportListe_ies"] "RANAP_DataVolumeReportList:dataVolumeReportListe_ies_2" "A_SEQUENCE_OF"] (SpSeq "RANAP_DataVolumeReportList" ("RANAP_DataVolumeReportList", "_asn_ctx") [] 0 0);
  (* src/ranap/RANAP_DataVolumeReportRequest.c:66-92 *)
  De "RANAP_DataVolumeReportRequest:dataVolumeReportRequest_ies_2" ["SEQUENCE_OF"; "SEQUENCE_OF"; "SEQUENCE_OF"; "SEQUENCE_OF"] (Of "SEQUENCE_OF") [El true 0 "" [] "RANAP_IE" ""] (SpList "RANAP_DataVolumeReportRequest__dataVolumeReportRequest_ies" ("RANAP_DataVolumeReportRequest__dataVolumeReportRequest_ies", "_asn_ctx"));
  (* src/ranap/RANAP_DataVolumeReportRequest.c:120-145 *)
  De "RANAP_DataVolumeReportRequest" ["SEQUENCE"; "SEQUENCE"; "SEQUENCE"; "SEQUENCE"] (Of "SEQUENCE") [El false 0 "RANAP_DataVolumeReportRequest" ["dataVolumeReportRequest_ies"] "RANAP_DataVolumeReportRequest:dataVolumeReportRequest_ies_2" "A_SEQUENCE_OF"] (SpSeq "RANAP_DataVolumeReportRequest" ("RANAP_DataVolumeReportRequest", "_asn_ctx") [] 0 0);
  (* src/ranap/RANAP_DataVolumeReportingIndication.c:141-165 *)
  De "RANAP_DataVolumeReportingIndication" ["NativeEnumerated"; "NativeEnumerated"; "NativeEnumerated"; "NativeEnumerated"] (Of "NativeEnumerated") [] (SpInt false);
  (* src/ranap/RANAP_DeliveryOfErroneousSDU.c:143-167 *)
  De "RANAP_DeliveryOfErroneousSDU" ["NativeEnumerated"; "NativeEnumerated"; "NativeEnumerated"; "NativeEnumerated"] (Of "NativeEnumerated") [] (SpInt false);
  (* src/ranap/RANAP_DeliveryOrder.c:141-165 *)
  De "RANAP_DeliveryOrder" ["NativeEnumerated"; "NativeEnumerated"; "NativeEnumerated"; "NativeEnumerated"] (Of "NativeEnumerated") [] (SpInt false);
  (* src/ranap/RANAP_DeltaRAListofIdleModeUEs.c:58-83 *)
  De "RANAP_DeltaRAListofIdleModeUEs" ["SEQUENCE"; "SEQUENCE"; "SEQUENCE"; "SEQUENCE"] (Of "SEQUENCE") [El true 3 "RANAP_DeltaRAListofIdleModeUEs" ["newRAListofIdleModeUEs"] "RANAP_NewRAListofIdleModeUEs" "";
    El true 2 "RANAP_DeltaRAListofIdleModeUEs" ["rAListwithNoIdleModeUEsAnyMore"] "RANAP_RAListwithNoIdleModeUEsAnyMore" "";
    El true 1 "RANAP_DeltaRAListofIdleModeUEs" ["iE_Extensions"] "RANAP_IE_Extensions" ""] (SpSeq "RANAP_DeltaRAListofIdleModeUEs" ("RANAP_DeltaRAListofIdleModeUEs", "_asn_ctx") [0; 1; 2] 3 0);
  (* src/ranap/RANAP_DirectInformationTransfer.c:66-92 *)
  De "RANAP_DirectInformationTransfer:directInformationTransfer_ies_2" ["SEQUENCE_OF"; "SEQUENCE_OF"; "SEQUENCE_OF"; "SEQUENCE_OF"] (Of "SEQUENCE_OF") [El true 0 "" [] "RANAP_IE" ""] (SpList "RANAP_DirectInformationTransfer__directInformationTransfer_ies" ("RANAP_DirectInformationTransfer__directInformationTransfer_ies", "_asn_ctx"));
  (* src/ranap/RANAP_DirectInformationTransfer.c:120-145 *)
  De "RANAP_DirectInformationTransfer" ["SEQUENCE"; "SEQUENCE"; "SEQUENCE"; "SEQUENCE"] (Of "SEQUENCE") [El false 0 "RANAP_DirectInformationTransfer" ["directInformationTransfer_ies"] "RANAP_DirectInformationTransfer:directInformationTransfer_ies_2" "A_SEQUENCE_OF"] (SpSeq "RANAP_DirectInformationTransfer" ("RANAP_DirectInformationTransfer", "_asn_ctx") [] 0 0);
  (* src/ranap/RANAP_DirectReportingIndicator.c:143-167 *)
  De "RANAP_DirectReportingIndicator" ["NativeEnumerated"; "NativeEnumerated"; "NativeEnumerated"; "NativeEnumerated"] (Of "NativeEnumerated") [] (SpInt false);
  (* src/ranap/RANAP_DirectTransfer-IE-ContainerList.c:34-59 *)
  De "RANAP_DirectTransfer_IE_ContainerList" ["SEQUENCE_OF"; "SEQUENCE_OF"; "SEQUENCE_OF"; "SEQUENCE_OF"] (Of "SEQUENCE_OF") [El true 0 "" [] "RANAP_ProtocolIE_Container" ""] (SpList "RANAP_DirectTransfer_IE_ContainerList" ("RANAP_DirectTransfer_IE_ContainerList", "_asn_ctx"));
  (* src/ranap/RANAP_DirectTransfer.c:66-92 *)
  De "RANAP_DirectTransfer:directTransfer_ies_2" ["SEQUENCE_OF"; "SEQUENCE_OF"; "SEQUENCE_OF"; "SEQUENCE_OF"] (Of "SEQUENCE_OF") [El true 0 "" [] "RANAP_IE" ""] (SpList "RANAP_DirectTransfer__directTransfer_ies" ("RANAP_DirectTransfer__directTransfer_ies", "_asn_ctx"));
  (* src/ranap/RANAP_DirectTransfer.c:120-145 *)
  De "RANAP_DirectTransfer" ["SEQUENCE"; "SEQUENCE"; "SEQUENCE"; "SEQUENCE"] (Of "SEQUENCE") [El false 0 "RANAP_DirectTransfer" ["directTransfer_ies"] "RANAP_DirectTransfer:directTransfer_ies_2" "A_SEQUENCE_OF"] (SpSeq "RANAP_DirectTransfer" ("RANAP_DirectTransfer", "_asn_ctx") [] 0 0);
  (* src/ranap/RANAP_DirectTransferInformationItem-RANAP-RelocInf.c:68-93 *)
  De "RANAP_DirectTransferInformationItem_RANAP_RelocInf" ["SEQUENCE"; "SEQUENCE"; "SEQUENCE"; "SEQUENCE"] (Of "SEQUENCE") [El false 0 "RANAP_DirectTransferInformationItem_RANAP_RelocInf" ["nAS_PDU"] "RANAP_NAS_PDU" "";
    El false 0 "RANAP_DirectTransferInformationItem_RANAP_RelocInf" ["sAPI"] "RANAP_SAPI" "";
    El false 0 "RANAP_DirectTransferInformationItem_RANAP_RelocInf" ["cN_DomainIndicator"] "RANAP_CN_DomainIndicator" "";
    El true 1 "RANAP_DirectTransferInformationItem_RANAP_RelocInf" ["iE_Extensions"] "RANAP_ProtocolExtensionContainer" ""] (SpSeq "RANAP_DirectTransferInformationItem_RANAP_RelocInf" ("RANAP_DirectTransferInformationItem_RANAP_RelocInf", "_asn_ctx") [3] 1 0);
  (* src/ranap/RANAP_E-DCH-MAC-d-Flow-ID.c:141-165 *)
  De "RANAP_E_DCH_MAC_d_Flow_ID" ["NativeInteger"; "NativeInteger"; "NativeInteger"; "NativeInteger"] (Cast "long") [] (SpNone);
  (* src/ranap/RANAP_E-UTRAN-Service-Handover.c:141-165 *)
  De "RANAP_E_UTRAN_Service_Handover" ["NativeEnumerated"; "NativeEnumerated"; "NativeEnumerated"; "NativeEnumerated"] (Of "NativeEnumerated") [] (SpInt false);
  (* src/ranap/RANAP_EARFCN-Extended.c:141-165 *)
  De "RANAP_EARFCN_Extended" ["NativeInteger"; "NativeInteger"; "NativeInteger"; "NativeInteger"] (Cast "long") [] (SpNone);
  (* src/ranap/RANAP_ENB-ID.c:121-144 *)
  De "RANAP_ENB_ID" ["CHOICE"; "CHOICE"; "CHOICE"; "CHOICE"] (Of "CHOICE") [El false 0 "RANAP_ENB_ID" ["choice"; "macroENB_ID"] "BIT_STRING" "BIT_STRING_t";
    El false 0 "RANAP_ENB_ID" ["choice"; "homeENB_ID"] "BIT_STRING" "BIT_STRING_t"] (SpChoice "RANAP_ENB_ID" ("RANAP_ENB_ID", "_asn_ctx") ("RANAP_ENB_ID", "present") ("RANAP_ENB_ID", "present"));
  (* src/ranap/RANAP_EUTRANFrequencies-Value.c:88-113 *)
  De "RANAP_EUTRANFrequencies_Value" ["SEQUENCE"; "SEQUENCE"; "SEQUENCE"; "SEQUENCE"] (Of "SEQUENCE") [El false 0 "RANAP_EUTRANFrequencies_Value" ["earfcn"] "NativeInteger" "long";
    El true 2 "RANAP_EUTRANFrequencies_Value" ["measBand"] "RANAP_MeasBand" "";
    El true 1 "RANAP_EUTRANFrequencies_Value" ["iE_Extensions"] "RANAP_IE_Extensions" ""] (SpSeq "RANAP_EUTRANFrequencies_Value" ("RANAP_EUTRANFrequencies_Value", "_asn_ctx") [1; 2] 2 0);
  (* src/ranap/RANAP_EUTRANFrequencies.c:34-59 *)
  De "RANAP_EUTRANFrequencies" ["SEQUENCE_OF"; "SEQUENCE_OF"; "SEQUENCE_OF"; "SEQUENCE_OF"] (Of "SEQUENCE_OF") [El true 0 "" [] "RANAP_EUTRANFrequencies_Value" ""] (SpList "RANAP_EUTRANFrequencies" ("RANAP_EUTRANFrequencies", "_asn_ctx"));
  (* src/ranap/RANAP_EncryptionAlgorithm.c:141-165 *)
  De "RANAP_EncryptionAlgorithm" ["NativeInteger"; "NativeInteger"; "NativeInteger"; "NativeInteger"] (Cast "long") [] (SpNone);
  (* src/ranap/RANAP_EncryptionInformation.c:58-83 *)
  De "RANAP_EncryptionInformation" ["SEQUENCE"; "SEQUENCE"; "SEQUENCE"; "SEQUENCE"] (Of "SEQUENCE") [El false 0 "RANAP_EncryptionInformation" ["permittedAlgorithms"] "RANAP_PermittedEncryptionAlgorithms" "";
    El false 0 "RANAP_EncryptionInformation" ["key"] "RANAP_EncryptionKey" "";
    El true 1 "RANAP_EncryptionInformation" ["iE_Extensions"] "RANAP_IE_Extensions" ""] (SpSeq "RANAP_EncryptionInformation" ("RANAP_EncryptionInformation", "_asn_ctx") [2] 1 0);
  (* src/ranap/RANAP_EncryptionKey.c:147-171 *)
  De "RANAP_EncryptionKey" ["BIT_STRING"; "BIT_STRING"; "BIT_STRING"; "BIT_STRING"] (Cast "BIT_STRING_t") [] (SpNone);
  (* src/ranap/RANAP_End-Of-CSFB.c:141-165 *)
  De "RANAP_End_Of_CSFB" ["NativeEnumerated"; "NativeEnumerated"; "NativeEnumerated"; "NativeEnumerated"] (Of "NativeEnumerated") [] (SpInt false);
  (* src/ranap/RANAP_EnhancedRelocationCompleteConfirm.c:66-92 *)
  De "RANAP_EnhancedRelocationCompleteConfirm:enhancedRelocationCompleteConfirm_ies_2" ["SEQUENCE_OF"; "SEQUENCE_OF"; "SEQUENCE_OF"; "SEQUENCE_OF"] (Of "SEQUENCE_OF") [El true 0 "" [] "RANAP_IE" ""] (SpList "RANAP_EnhancedRelocationCompleteConfirm__enhancedRelocationCompleteConfirm_ies" ("RANAP_EnhancedRelocationCompleteConfirm__enhancedRelocationCompleteConfirm_ies", "_asn_ctx"));
  (* src/ranap/RANAP_EnhancedRelocationCompleteConfirm.c:120-145 *)
  De "RANAP_EnhancedRelocationCompleteConfirm" ["SEQUENCE"; "SEQUENCE"; "SEQUENCE"; "SEQUENCE"] (Of "SEQUENCE") [El false 0 "RANAP_EnhancedRelocationCompleteConfirm" ["enhancedRelocationCompleteConfirm_ies"] "RANAP_EnhancedRelocationCompleteConfirm:enhancedRelocationCompleteConfirm_ies_2" "A_SEQUENCE_OF"] (SpSeq "RANAP_EnhancedRelocationCompleteConfirm" ("RANAP_EnhancedRelocationCompleteConfirm", "_asn_ctx") [] 0 0);
  (* src/ranap/RANAP_EnhancedRelocationCompleteFailure.c:66-92 *)
  De "RANAP_EnhancedRelocationCompleteFailure:enhancedRelocationCompleteFailure_ies_2" ["SEQUENCE_OF"; "SEQUENCE_OF"; "SEQUENCE_OF"; "SEQUENCE_OF"] (Of "SEQUENCE_OF") [El true 0 "" [] "RANAP_IE" ""] (SpList "RANAP_EnhancedRelocationCompleteFailure__enhancedRelocationCompleteFailure_ies" ("RANAP_EnhancedRelocationCompleteFailure__enhancedRelocationCompleteFailure_ies", "_asn_ctx"));
  (* src/ranap/RANAP_EnhancedRelocationCompleteFailure.c:120-145 *)
  De "RANAP_EnhancedRelocationCompleteFailure" ["SEQUENCE"; "SEQUENCE"; "SEQUENCE"; "SEQUENCE"] (Of "SEQUENCE") [El false 0 "RANAP_EnhancedRelocationCompleteFailure" ["enhancedRelocationCompleteFailure_ies"] "RANAP_EnhancedRelocationCompleteFailure:enhancedRelocationCompleteFailure_ies_2" "A_SEQUENCE_OF"] (SpSeq "RANAP_EnhancedRelocationCompleteFailure" ("RANAP_EnhancedRelocationCompleteFailure", "_asn_ctx") [] 0 0);
  (* src/ranap/RANAP_EnhancedRelocationCompleteRequest.c:66-92 *)
  De "RANAP_EnhancedRelocationCompleteRequest:enhancedRelocationCompleteRequest_ies_2" ["SEQUENCE_OF"; "SEQUENCE_OF"; "SEQUENCE_OF"; "SEQUENCE_OF"] (Of "SEQUENCE_OF") [El true 0 "" [] "RANAP_IE" ""] (SpList "RANAP_EnhancedRelocationCompleteRequest__enhancedRelocationCompleteRequest_ies" ("RANAP_EnhancedRelocationCompleteRequest__enhancedRelocationCompleteRequest_ies", "_asn_ctx"));
  (* src/ranap/RANAP_EnhancedRelocationCompleteRequest.c:120-145 *)
  De "RANAP_EnhancedRelocationCompleteRequest" ["SEQUENCE"; "SEQUENCE"; "SEQUENCE"; "SEQUENCE"] (Of "SEQUENCE") [El false 0 "RANAP_EnhancedRelocationCompleteRequest" ["enhancedRelocationCompleteRequest_ies"] "RANAP_EnhancedRelocationCompleteRequest:enhancedRelocationCompleteRequest_ies_2" "A_SEQUENCE_OF"] (SpSeq "RANAP_EnhancedRelocationCompleteRequest" ("RANAP_EnhancedRelocationCompleteRequest", "_asn_ctx") [] 0 0);
  (* src/ranap/RANAP_EnhancedRelocationCompleteResponse.c:66-92 *)
  De "RANAP_EnhancedRelocationCompleteResponse:enhancedRelocationCompleteResponse_ies_2" ["SEQUENCE_OF"; "SEQUENCE_OF"; "SEQUENCE_OF"; "SEQUENCE_OF"] (Of "SEQUENCE_OF") [El true 0 "" [] "RANAP_IE" ""] (SpList "RANAP_EnhancedRelocationCompleteResponse__enhancedRelocationCompleteResponse_ies" ("RANAP_EnhancedRelocationCompleteResponse__enhancedRelocationCompleteResponse_ies", "_asn_ctx"));
  (* src/ranap/RANAP_EnhancedRelocationCompleteResponse.c:120-145 *)
  De "RANAP_EnhancedRelocationCompleteResponse" ["SEQUENCE"; "SEQUENCE"; "SEQUENCE"; "SEQUENCE"] (Of "SEQUENCE") [El false 0 "RANAP_EnhancedRelocationCompleteResponse" ["enhancedRelocationCompleteResponse_ies"] "RANAP_EnhancedRelocationCompleteResponse:enhancedRelocationCompleteResponse_ies_2" "A_SEQUENCE_OF"] (SpSeq "RANAP_EnhancedRelocationCompleteResponse" ("RANAP_EnhancedRelocationCompleteResponse", "_asn_ctx") [] 0 0);
  (* src/ranap/RANAP_EquipmentsToBeTraced.c:69-92 *)
  De "RANAP_EquipmentsToBeTraced" ["CHOICE"; "CHOICE"; "CHOICE"; "CHOICE"] (Of "CHOICE") [El false 0 "RANAP_EquipmentsToBeTraced" ["choice"; "iMEIlist"] "RANAP_IMEIList" "";
    El false 0 "RANAP_EquipmentsToBeTraced" ["choice"; "iMEISVlist"] "RANAP_IMEISVList" "";
    El false 0 "RANAP_EquipmentsToBeTraced" ["choice"; "iMEIgroup"] "RANAP_IMEIGroup" "";
    El false 0 "RANAP_EquipmentsToBeTraced" ["choice"; "iMEISVgroup"] "RANAP_IMEISVGroup" ""] (SpChoice "RANAP_EquipmentsToBeTraced" ("RANAP_EquipmentsToBeTraced", "_asn_ctx") ("RANAP_EquipmentsToBeTraced", "present") ("RANAP_EquipmentsToBeTraced", "present"));
  (* src/ranap/RANAP_ErrorIndication.c:66-92 *)
  De "RANAP_ErrorIndication:errorIndication_ies_2" ["SEQUENCE_OF"; "SEQUENCE_OF"; "SEQUENCE_OF"; "SEQUENCE_OF"] (Of "SEQUENCE_OF") [El true 0 "" [] "RANAP_IE" ""] (SpList "RANAP_ErrorIndication__errorIndication_ies" ("RANAP_ErrorIndication__errorIndication_ies", "_asn_ctx"));
  (* src/ranap/RANAP_ErrorIndication.c:120-145 *)
  De "RANAP_ErrorIndication" ["SEQUENCE"; "SEQUENCE"; "SEQUENCE"; "SEQUENCE"] (Of "SEQUENCE") [El false 0 "RANAP_ErrorIndication" ["errorIndication_ies"] "RANAP_ErrorIndication:errorIndication_ies_2" "A_SEQUENCE_OF"] (SpSeq "RANAP_ErrorIndication" ("RANAP_ErrorIndication", "_asn_ctx") [] 0 0);
  (* src/ranap/RANAP_Event.c:151-175 *)
  De "RANAP_Event" ["NativeEnumerated"; "NativeEnumerated"; "NativeEnumerated"; "NativeEnumerated"] (Of "NativeEnumerated") [] (SpInt false);
  (* src/ranap/RANAP_Event1F-Parameters.c:76-101 *)
  De "RANAP_Event1F_Parameters" ["SEQUENCE"; "SEQUENCE"; "SEQUENCE"; "SEQUENCE"] (Of "SEQUENCE") [El false 0 "RANAP_Event1F_Parameters" ["measurementQuantity"] "RANAP_MeasurementQuantity" "";
    El false 0 "RANAP_Event1F_Parameters" ["threshold"] "NativeInteger" "long"] (SpSeq "RANAP_Event1F_Parameters" ("RANAP_Event1F_Parameters", "_asn_ctx") [] 0 0);
  (* src/ranap/RANAP_Event1I-Parameters.c:66-91 *)
  De "RANAP_Event1I_Parameters" ["SEQUENCE"; "SEQUENCE"; "SEQUENCE"; "SEQUENCE"] (Of "SEQUENCE") [El false 0 "RANAP_Event1I_Parameters" ["threshold"] "NativeInteger" "long"] (SpSeq "RANAP_Event1I_Parameters" ("RANAP_Event1I_Parameters", "_asn_ctx") [] 0 0);
  (* src/ranap/RANAP_ExtendedGuaranteedBitrate.c:141-165 *)
  De "RANAP_ExtendedGuaranteedBitrate" ["NativeInteger"; "NativeInteger"; "NativeInteger"; "NativeInteger"] (Cast "long") [] (SpNone);
  (* src/ranap/RANAP_ExtendedMaxBitrate.c:141-165 *)
  De "RANAP_ExtendedMaxBitrate" ["NativeInteger"; "NativeInteger"; "NativeInteger"; "NativeInteger"] (Cast "long") [] (SpNone);
  (* src/ranap/RANAP_ExtendedRNC-ID.c:141-165 *)
  De "RANAP_ExtendedRNC_ID" ["NativeInteger"; "NativeInteger"; "NativeInteger"; "NativeInteger"] (Cast "long") [] (SpNone);
  (* src/ranap/RANAP_ForwardSRNS-Context.c:66-92 *)
  De "RANAP_ForwardSRNS-Context:forwardSRNS_Context_ies_2" ["SEQUENCE_OF"; "SEQUENCE_OF"; "SEQUENCE_OF"; "SEQUENCE_OF"] (Of "SEQUENCE_OF") [El true 0 "" [] "RANAP_IE" ""] (SpList "RANAP_ForwardSRNS_Context__forwardSRNS_Context_ies" ("RANAP_ForwardSRNS_Context__forwardSRNS_Context_ies", "_asn_ctx"));
  (* src/ranap/RANAP_ForwardSRNS-Context.c:120-145 *)
  De "RANAP_ForwardSRNS_Context" ["SEQUENCE"; "SEQUENCE"; "SEQUENCE"; "SEQUENCE"] (Of "SEQUENCE") [El false 0 "RANAP_ForwardSRNS_Context" ["forwardSRNS_Context_ies"] "RANAP_ForwardSRNS-Context:forwardSRNS_Context_ies_2" "A_SEQUENCE_OF"] (SpSeq "RANAP_ForwardSRNS_Context" ("RANAP_ForwardSRNS_Context", "_asn_ctx") [] 0 0);
  (* src/ranap/RANAP_ForwardingIndication.c:141-165 *)
  De "RANAP_ForwardingIndication" ["NativeEnumerated"; "NativeEnumerated"; "NativeEnumerated"; "NativeEnumerated"] (Of "NativeEnumerated") [] (SpInt false);
  (* src/ranap/RANAP_FrameSequenceNumber.c:141-165 *)
  De "RANAP_FrameSequenceNumber" ["NativeInteger"; "NativeInteger"; "NativeInteger"; "NativeInteger"] (Cast "long") [] (SpNone);
  (* src/ranap/RANAP_FrequenceLayerConvergenceFlag.c:141-165 *)
  De "RANAP_FrequenceLayerConvergenceFlag" ["NativeEnumerated"; "NativeEnumerated"; "NativeEnumerated"; "NativeEnumerated"] (Of "NativeEnumerated") [] (SpInt false);
  (* src/ranap/RANAP_GA-AltitudeAndDirection.c:172-197 *)
  De "RANAP_GA-AltitudeAndDirection:directionOfAltitude_2" ["NativeEnumerated"; "NativeEnumerated"; "NativeEnumerated"; "NativeEnumerated"] (Of "NativeEnumerated") [] (SpInt false);
  (* src/ranap/RANAP_GA-AltitudeAndDirection.c:235-260 *)
  De "RANAP_GA_AltitudeAndDirection" ["SEQUENCE"; "SEQUENCE"; "SEQUENCE"; "SEQUENCE"] (Of "SEQUENCE") [El false 0 "RANAP_GA_AltitudeAndDirection" ["directionOfAltitude"] "RANAP_GA-AltitudeAndDirection:directionOfAltitude_2" "";
    El false 0 "RANAP_GA_AltitudeAndDirection" ["altitude"] "NativeInteger" "long"] (SpSeq "RANAP_GA_AltitudeAndDirection" ("RANAP_GA_AltitudeAndDirection", "_asn_ctx") [] 0 0);
  (* src/ranap/RANAP_GA-EllipsoidArc.c:248-273 *)
  De "RANAP_GA_EllipsoidArc" ["SEQUENCE"; "SEQUENCE"; "SEQUENCE"; "SEQUENCE"] (Of "SEQUENCE") [El false 0 "RANAP_GA_EllipsoidArc" ["geographicalCoordinates"] "RANAP_GeographicalCoordinates" "";
    El false 0 "RANAP_GA_EllipsoidArc" ["innerRadius"] "NativeInteger" "long";
    El false 0 "RANAP_GA_EllipsoidArc" ["uncertaintyRadius"] "NativeInteger" "long";
    El false 0 "RANAP_GA_EllipsoidArc" ["offsetAngle"] "NativeInteger" "long";
    El false 0 "RANAP_GA_EllipsoidArc" ["includedAngle"] "NativeInteger" "long";
    El false 0 "RANAP_GA_EllipsoidArc" ["confidence"] "NativeInteger" "long";
    El true 1 "RANAP_GA_EllipsoidArc" ["iE_Extensions"] "RANAP_IE_Extensions" ""] (SpSeq "RANAP_GA_EllipsoidArc" ("RANAP_GA_EllipsoidArc", "_asn_ctx") [6] 1 0);
  (* src/ranap/RANAP_GA-Point.c:48-73 *)
  De "RANAP_GA_Point" ["SEQUENCE"; "SEQUENCE"; "SEQUENCE"; "SEQUENCE"] (Of "SEQUENCE") [El false 0 "RANAP_GA_Point" ["geographicalCoordinates"] "RANAP_GeographicalCoordinates" "";
    El true 1 "RANAP_GA_Point" ["iE_Extensions"] "RANAP_IE_Extensions" ""] (SpSeq "RANAP_GA_Point" ("RANAP_GA_Point", "_asn_ctx") [1] 1 0);
  (* src/ranap/RANAP_GA-PointWithAltitude.c:58-83 *)
  De "RANAP_GA_PointWithAltitude" ["SEQUENCE"; "SEQUENCE"; "SEQUENCE"; "SEQUENCE"] (Of "SEQUENCE") [El false 0 "RANAP_GA_PointWithAltitude" ["geographicalCoordinates"] "RANAP_GeographicalCoordinates" "";
    El false 0 "RANAP_GA_PointWithAltitude" ["altitudeAndDirection"] "RANAP_GA_AltitudeAndDirection" "";
    El true 1 "RANAP_GA_PointWithAltitude" ["iE_Extensions"] "RANAP_IE_Extensions" ""] (SpSeq "RANAP_GA_PointWithAltitude" ("RANAP_GA_PointWithAltitude", "_asn_ctx") [2] 1 0);
  (* src/ranap/RANAP_GA-PointWithAltitudeAndUncertaintyEllipsoid.c:148-173 *)
  De "RANAP_GA_PointWithAltitudeAndUncertaintyEllipsoid" ["SEQUENCE"; "SEQUENCE"; "SEQUENCE"; "SEQUENCE"] (Of "SEQUENCE") [El false 0 "RANAP_GA_PointWithAltitudeAndUncertaintyEllipsoid" ["geographicalCoordinates"] "RANAP_GeographicalCoordinates" "";
    El false 0 "RANAP_GA_PointWithAltitudeAndUncertaintyEllipsoid" ["altitudeAndDirection"] "RANAP_GA_AltitudeAndDirection" "";
    El false 0 "RANAP_GA_PointWithAltitudeAndUncertaintyEllipsoid" ["uncertaintyEllipse"] "RANAP_GA_UncertaintyEllipse" "";
    El false 0 "RANAP_GA_PointWithAltitudeAndUncertaintyEllipsoid" ["uncertaintyAltitude"] "NativeInteger" "long";
    El false 0 "RANAP_GA_PointWithAltitudeAndUncertaintyEllipsoid" ["confidence"] "NativeInteger" "long";
    El true 1 "RANAP_GA_PointWithAltitudeAndUncertaintyEllipsoid" ["iE_Extensions"] "RANAP_IE_Extensions" ""] (SpSeq "RANAP_GA_PointWithAltitudeAndUncertaintyEllipsoid" ("RANAP_GA_PointWithAltitudeAndUncertaintyEllipsoid", "_asn_ctx") [5] 1 0);
  (* src/ranap/RANAP_GA-PointWithUnCertainty.c:88-113 *)
  De "RANAP_GA_PointWithUnCertainty" ["SEQUENCE"; "SEQUENCE"; "SEQUENCE"; "SEQUENCE"] (Of "SEQUENCE") [El false 0 "RANAP_GA_PointWithUnCertainty" ["geographicalCoordinates"] "RANAP_GeographicalCoordinates" "";
    El true 1 "RANAP_GA_PointWithUnCertainty" ["iE_Extensions"] "RANAP_IE_Extensions" "";
    El false 0 "RANAP_GA_PointWithUnCertainty" ["uncertaintyCode"] "NativeInteger" "long"] (SpSeq "RANAP_GA_PointWithUnCertainty" ("RANAP_GA_PointWithUnCertainty", "_asn_ctx") [1] 1 0);
  (* src/ranap/RANAP_GA-PointWithUnCertaintyEllipse.c:98-123 *)
  De "RANAP_GA_PointWithUnCertaintyEllipse" ["SEQUENCE"; "SEQUENCE"; "SEQUENCE"; "SEQUENCE"] (Of "SEQUENCE") [El false 0 "RANAP_GA_PointWithUnCertaintyEllipse" ["geographicalCoordinates"] "RANAP_GeographicalCoordinates" "";
    El false 0 "RANAP_GA_PointWithUnCertaintyEllipse" ["uncertaintyEllipse"] "RANAP_GA_UncertaintyEllipse" "";
    El false 0 "RANAP_GA_PointWithUnCertaintyEllipse" ["confidence"] "NativeInteger" "long";
    El true 1 "RANAP_GA_PointWithUnCertaintyEllipse" ["iE_Extensions"] "RANAP_IE_Extensions" ""] (SpSeq "RANAP_GA_PointWithUnCertaintyEllipse" ("RANAP_GA_PointWithUnCertaintyEllipse", "_asn_ctx") [3] 1 0);
  (* src/ranap/RANAP_GA-Polygon-Value.c:48-73 *)
  De "RANAP_GA_Polygon_Value" ["SEQUENCE"; "SEQUENCE"; "SEQUENCE"; "SEQUENCE"] (Of "SEQUENCE") [El false 0 "RANAP_GA_Polygon_Value" ["geographicalCoordinates"] "RANAP_GeographicalCoordinates" "";
    El true 1 "RANAP_GA_Polygon_Value" ["iE_Extensions"] "RANAP_IE_Extensions" ""] (SpSeq "RANAP_GA_Polygon_Value" ("RANAP_GA_Polygon_Value", "_asn_ctx") [1] 1 0);
  (* src/ranap/RANAP_GA-Polygon.c:34-59 *)
  De "RANAP_GA_Polygon" ["SEQUENCE_OF"; "SEQUENCE_OF"; "SEQUENCE_OF"; "SEQUENCE_OF"] (Of "SEQUENCE_OF") [El true 0 "" [] "RANAP_GA_Polygon_Value" ""] (SpList "RANAP_GA_Polygon" ("RANAP_GA_Polygon", "_asn_ctx"));
  (* src/ranap/RANAP_GA-UncertaintyEllipse.c:146-171 *)
  De "RANAP_GA_UncertaintyEllipse" ["SEQUENCE"; "SEQUENCE"; "SEQUENCE"; "SEQUENCE"] (Of "SEQUENCE") [El false 0 "RANAP_GA_UncertaintyEllipse" ["uncertaintySemi_major"] "NativeInteger" "long";
    El false 0 "RANAP_GA_UncertaintyEllipse" ["uncertaintySemi_minor"] "NativeInteger" "long";
    El false 0 "RANAP_GA_UncertaintyEllipse" ["orientationOfMajorAxis"] "NativeInteger" "long"] (SpSeq "RANAP_GA_UncertaintyEllipse" ("RANAP_GA_UncertaintyEllipse", "_asn_ctx") [] 0 0);
  (* src/ranap/RANAP_GANSS-PositioningDataSet.c:34-59 *)
  De "RANAP_GANSS_PositioningDataSet" ["SEQUENCE_OF"; "SEQUENCE_OF"; "SEQUENCE_OF"; "SEQUENCE_OF"] (Of "SEQUENCE_OF") [El true 0 "" [] "RANAP_GANSS_PositioningMethodAndUsage" ""] (SpList "RANAP_GANSS_PositioningDataSet" ("RANAP_GANSS_PositioningDataSet", "_asn_ctx"));
  (* src/ranap/RANAP_GANSS-PositioningMethodAndUsage.c:142-166 *)
  De "RANAP_GANSS_PositioningMethodAndUsage" ["OCTET_STRING"; "OCTET_STRING"; "OCTET_STRING"; "OCTET_STRING"] (Cast "OCTET_STRING_t") [] (SpNone);
  (* src/ranap/RANAP_GERAN-BSC-Container.c:119-143 *)
  De "RANAP_GERAN_BSC_Container" ["OCTET_STRING"; "OCTET_STRING"; "OCTET_STRING"; "OCTET_STRING"] (Of "OCTET_STRING") [] (SpNone);
  (* src/ranap/RANAP_GERAN-Cell-ID.c:68-93 *)
  De "RANAP_GERAN_Cell_ID" ["SEQUENCE"; "SEQUENCE"; "SEQUENCE"; "SEQUENCE"] (Of "SEQUENCE") [El false 0 "RANAP_GERAN_Cell_ID" ["lAI"] "RANAP_LAI" "";
    El false 0 "RANAP_GERAN_Cell_ID" ["rAC"] "RANAP_RAC" "";
    El false 0 "RANAP_GERAN_Cell_ID" ["cI"] "RANAP_CI" "";
    El true 1 "RANAP_GERAN_Cell_ID" ["iE_Extensions"] "RANAP_IE_Extensions" ""] (SpSeq "RANAP_GERAN_Cell_ID" ("RANAP_GERAN_Cell_ID", "_asn_ctx") [3] 1 0);
  (* src/ranap/RANAP_GERAN-Classmark.c:119-143 *)
  De "RANAP_GERAN_Classmark" ["OCTET_STRING"; "OCTET_STRING"; "OCTET_STRING"; "OCTET_STRING"] (Of "OCTET_STRING") [] (SpNone);
  (* src/ranap/RANAP_GERAN-Iumode-RAB-Failed-RABAssgntResponse-Item.c:68-93 *)
  De "RANAP_GERAN_Iumode_RAB_Failed_RABAssgntResponse_Item" ["SEQUENCE"; "SEQUENCE"; "SEQUENCE"; "SEQUENCE"] (Of "SEQUENCE") [El false 0 "RANAP_GERAN_Iumode_RAB_Failed_RABAssgntResponse_Item" ["rAB_ID"] "RANAP_RAB_ID" "";
    El false 0 "RANAP_GERAN_Iumode_RAB_Failed_RABAssgntResponse_Item" ["cause"] "RANAP_Cause" "";
    El true 2 "RANAP_GERAN_Iumode_RAB_Failed_RABAssgntResponse_Item" ["gERAN_Classmark"] "RANAP_GERAN_Classmark" "";
    El true 1 "RANAP_GERAN_Iumode_RAB_Failed_RABAssgntResponse_Item" ["iE_Extensions"] "RANAP_ProtocolExtensionContainer" ""] (SpSeq "RANAP_GERAN_Iumode_RAB_Failed_RABAssgntResponse_Item" ("RANAP_GERAN_Iumode_RAB_Failed_RABAssgntResponse_Item", "_asn_ctx") [2; 3] 2 0);
  (* src/ranap/RANAP_GERAN-Iumode-RAB-Failed-RABAssgntResponse-List.c:66-92 *)
  De "RANAP_GERAN-Iumode-RAB-Failed-RABAssgntResponse-List:geraN_Iumode_RAB_Failed_RABAssgntResponse_List_ies_2" ["SEQUENCE_OF"; "SEQUENCE_OF"; "SEQUENCE_OF"; "SEQUENCE_OF"] (Of "SEQUENCE_OF") [El true 0 "" [] "RANAP_IE" ""] (SpList "RANAP_GERAN_Iumode_RAB_Failed_RABAssgntResponse_List__geraN_Iumode_RAB_Failed_RABAssgntResponse_List_ies" ("RANAP_GERAN_Iumode_RAB_Failed_RABAssgntResponse_List__geraN_Iumode_RAB_Failed_RABAssgntResponse_List_ies", "_asn_ctx"));
  (* src/ranap/RANAP_GERAN-Iumode-RAB-Failed-RABAssgntResponse-List.c:120-145 *)
  De "RANAP_GERAN_Iumode_RAB_Failed_RABAssgntResponse_List" ["SEQUENCE"; "SEQUENCE"; "SEQUENCE"; "SEQUENCE"] (Of "SEQUENCE") [El false 0 "RANAP_GERAN_Iumode_RAB_Failed_RABAssgntResponse_List" ["geraN_Iumode_RAB_Failed_RABAssgntResponse_List_ies"] "RANAP_GERAN-Iumode-RAB-Failed-RABAssgntResponse-List:geraN_Iumode_RAB_Failed_RABAssgntResponse_List_ies_2" "A_SEQUENCE_OF"] (SpSeq "RANAP_GERAN_Iumode_RAB_Failed_RABAssgntResponse_List" ("RANAP_GERAN_Iumode_RAB_Failed_RABAssgntResponse_List", "_asn_ctx") [] 0 0);
  (* src/ranap/RANAP_GTP-TEI.c:142-166 *)
  De "RANAP_GTP_TEI" ["OCTET_STRING"; "OCTET_STRING"; "OCTET_STRING"; "OCTET_STRING"] (Cast "OCTET_STRING_t") [] (SpNone);
  (* src/ranap/RANAP_GeographicalArea.c:99-122 *)
  De "RANAP_GeographicalArea" ["CHOICE"; "CHOICE"; "CHOICE"; "CHOICE"] (Of "CHOICE") [El false 0 "RANAP_GeographicalArea" ["choice"; "point"] "RANAP_GA_Point" "";
    El false 0 "RANAP_GeographicalArea" ["choice"; "pointWithUnCertainty"] "RANAP_GA_PointWithUnCertainty" "";
    El false 0 "RANAP_GeographicalArea" ["choice"; "polygon"] "RANAP_GA_Polygon" "";
    El false 0 "RANAP_GeographicalArea" ["choice"; "pointWithUncertaintyEllipse"] "RANAP_GA_PointWithUnCertaintyEllipse" "";
    El false 0 "RANAP_GeographicalArea" ["choice"; "pointWithAltitude"] "RANAP_GA_PointWithAltitude" "";
    El false 0 "RANAP_GeographicalArea" ["choice"; "pointWithAltitudeAndUncertaintyEllipsoid"] "RANAP_GA_PointWithAltitudeAndUncertaintyEllipsoid" "";
    El false 0 "RANAP_GeographicalArea" ["choice"; "ellipsoidArc"] "RANAP_GA_EllipsoidArc" ""] (SpChoice "RANAP_GeographicalArea" ("RANAP_GeographicalArea", "_asn_ctx") ("RANAP_GeographicalArea", "present") ("RANAP_GeographicalArea", "present"));
  (* src/ranap/RANAP_GeographicalCoordinates.c:202-227 *)
  De "RANAP_GeographicalCoordinates:latitudeSign_2" ["NativeEnumerated"; "NativeEnumerated"; "NativeEnumerated"; "NativeEnumerated"] (Of "NativeEnumerated") [] (SpInt false);
  (* src/ranap/RANAP_GeographicalCoordinates.c:287-312 *)
  De "RANAP_GeographicalCoordinates" ["SEQUENCE"; "SEQUENCE"; "SEQUENCE"; "SEQUENCE"] (Of "SEQUENCE") [El false 0 "RANAP_GeographicalCoordinates" ["latitudeSign"] "RANAP_GeographicalCoordinates:latitudeSign_2" "";
    El false 0 "RANAP_GeographicalCoordinates" ["latitude"] "NativeInteger" "long";
    El false 0 "RANAP_GeographicalCoordinates" ["longitude"] "NativeInteger" "long";
    El true 1 "RANAP_GeographicalCoordinates" ["iE_Extensions"] "RANAP_IE_Extensions" ""] (SpSeq "RANAP_GeographicalCoordinates" ("RANAP_GeographicalCoordinates", "_asn_ctx") [3] 1 0);
  (* src/ranap/RANAP_GlobalCN-ID.c:46-71 *)
  De "RANAP_GlobalCN_ID" ["SEQUENCE"; "SEQUENCE"; "SEQUENCE"; "SEQUENCE"] (Of "SEQUENCE") [El false 0 "RANAP_GlobalCN_ID" ["pLMNidentity"] "RANAP_PLMNidentity" "";
    El false 0 "RANAP_GlobalCN_ID" ["cN_ID"] "RANAP_CN_ID" ""] (SpSeq "RANAP_GlobalCN_ID" ("RANAP_GlobalCN_ID", "_asn_ctx") [] 0 0);
  (* src/ranap/RANAP_GlobalRNC-ID.c:46-71 *)
  De "RANAP_GlobalRNC_ID" ["SEQUENCE"; "SEQUENCE"; "SEQUENCE"; "SEQUENCE"] (Of "SEQUENCE") [El false 0 "RANAP_GlobalRNC_ID" ["pLMNidentity"] "RANAP_PLMNidentity" "";
    El false 0 "RANAP_GlobalRNC_ID" ["rNC_ID"] "RANAP_RNC_ID" ""] (SpSeq "RANAP_GlobalRNC_ID" ("RANAP_GlobalRNC_ID", "_asn_ctx") [] 0 0);
  (* src/ranap/RANAP_GuaranteedBitrate.c:141-165 *)
  De "RANAP_GuaranteedBitrate" ["NativeInteger"; "NativeInteger"; "NativeInteger"; "NativeInteger"] (Cast "long") [] (SpNone);
  (* src/ranap/RANAP_HS-DSCH-MAC-d-Flow-ID.c:141-165 *)
  De "RANAP_HS_DSCH_MAC_d_Flow_ID" ["NativeInteger"; "NativeInteger"; "NativeInteger"; "NativeInteger"] (Cast "long") [] (SpNone);
  (* src/ranap/RANAP_HigherBitratesThan16MbpsFlag.c:143-167 *)
  De "RANAP_HigherBitratesThan16MbpsFlag" ["NativeEnumerated"; "NativeEnumerated"; "NativeEnumerated"; "NativeEnumerated"] (Of "NativeEnumerated") [] (SpInt false);
  (* src/ranap/RANAP_HorizontalSpeedAndBearing.c:106-131 *)
  De "RANAP_HorizontalSpeedAndBearing" ["SEQUENCE"; "SEQUENCE"; "SEQUENCE"; "SEQUENCE"] (Of "SEQUENCE") [El false 0 "RANAP_HorizontalSpeedAndBearing" ["bearing"] "NativeInteger" "long";
    El false 0 "RANAP_HorizontalSpeedAndBearing" ["horizontalSpeed"] "NativeInteger" "long"] (SpSeq "RANAP_HorizontalSpeedAndBearing" ("RANAP_HorizontalSpeedAndBearing", "_asn_ctx") [] 0 0);
  (* src/ranap/RANAP_HorizontalVelocity.c:48-73 *)
  De "RANAP_HorizontalVelocity" ["SEQUENCE"; "SEQUENCE"; "SEQUENCE"; "SEQUENCE"] (Of "SEQUENCE") [El false 0 "RANAP_HorizontalVelocity" ["horizontalSpeedAndBearing"] "RANAP_HorizontalSpeedAndBearing" "";
    El true 1 "RANAP_HorizontalVelocity" ["iE_Extensions"] "RANAP_IE_Extensions" ""] (SpSeq "RANAP_HorizontalVelocity" ("RANAP_HorizontalVelocity", "_asn_ctx") [1] 1 0);
  (* src/ranap/RANAP_HorizontalVelocityWithUncertainty.c:88-113 *)
  De "RANAP_HorizontalVelocityWithUncertainty" ["SEQUENCE"; "SEQUENCE"; "SEQUENCE"; "SEQUENCE"] (Of "SEQUENCE") [El false 0 "RANAP_HorizontalVelocityWithUncertainty" ["horizontalSpeedAndBearing"] "RANAP_HorizontalSpeedAndBearing" "";
    El false 0 "RANAP_HorizontalVelocityWithUncertainty" ["uncertaintySpeed"] "NativeInteger" "long";
    El true 1 "RANAP_HorizontalVelocityWithUncertainty" ["iE_Extensions"] "RANAP_IE_Extensions" ""] (SpSeq "RANAP_HorizontalVelocityWithUncertainty" ("RANAP_HorizontalVelocityWithUncertainty", "_asn_ctx") [2] 1 0);
  (* src/ranap/RANAP_HorizontalWithVerticalVelocity.c:58-83 *)
  De "RANAP_HorizontalWithVerticalVelocity" ["SEQUENCE"; "SEQUENCE"; "SEQUENCE"; "SEQUENCE"] (Of "SEQUENCE") [El false 0 "RANAP_HorizontalWithVerticalVelocity" ["horizontalSpeedAndBearing"] "RANAP_HorizontalSpeedAndBearing" "";
    El false 0 "RANAP_HorizontalWithVerticalVelocity" ["veritcalVelocity"] "RANAP_VerticalVelocity" "";
    El true 1 "RANAP_HorizontalWithVerticalVelocity" ["iE_Extensions"] "RANAP_IE_Extensions" ""] (SpSeq "RANAP_HorizontalWithVerticalVelocity" ("RANAP_HorizontalWithVerticalVelocity", "_asn_ctx") [2] 1 0);
  (* src/ranap/RANAP_HorizontalWithVerticalVelocityAndUncertainty.c:138-163 *)
  De "RANAP_HorizontalWithVerticalVelocityAndUncertainty" ["SEQUENCE"; "SEQUENCE"; "SEQUENCE"; "SEQUENCE"] (Of "SEQUENCE") [El false 0 "RANAP_HorizontalWithVerticalVelocityAndUncertainty" ["horizontalSpeedAndBearing"] "RANAP_HorizontalSpeedAndBearing" "";
    El false 0 "RANAP_HorizontalWithVerticalVelocityAndUncertainty" ["veritcalVelocity"] "RANAP_VerticalVelocity" "";
    El false 0 "RANAP_HorizontalWithVerticalVelocityAndUncertainty" ["horizontalUncertaintySpeed"] "NativeInteger" "long";
    El false 0 "RANAP_HorizontalWithVerticalVelocityAndUncertainty" ["verticalUncertaintySpeed"] "NativeInteger" "long";
    El true 1 "RANAP_HorizontalWithVerticalVelocityAndUncertainty" ["iE_Extensions"] "RANAP_IE_Extensions" ""] (SpSeq "RANAP_HorizontalWithVerticalVelocityAndUncertainty" ("RANAP_HorizontalWithVerticalVelocityAndUncertainty", "_asn_ctx") [4] 1 0);
  (* src/ranap/RANAP_IE-Extensions.c:34-59 *)
  De "RANAP_IE_Extensions" ["SEQUENCE_OF"; "SEQUENCE_OF"; "SEQUENCE_OF"; "SEQUENCE_OF"] (Of "SEQUENCE_OF") [El true 0 "" [] "RANAP_IE" ""] (SpList "RANAP_IE_Extensions" ("RANAP_IE_Extensions", "_asn_ctx"));
  (* src/ranap/RANAP_IE.c:56-81 *)
  De "RANAP_IE" ["SEQUENCE"; "SEQUENCE"; "SEQUENCE"; "SEQUENCE"] (Of "SEQUENCE") [El false 0 "RANAP_IE" ["id"] "RANAP_ProtocolIE_ID" "";
    El false 0 "RANAP_IE" ["criticality"] "RANAP_Criticality" "";
    El false 0 "RANAP_IE" ["value"] "ANY" ""] (SpSeq "RANAP_IE" ("RANAP_IE", "_asn_ctx") [] 0 0);
  (* src/ranap/RANAP_IMEI.c:142-166 *)
  De "RANAP_IMEI" ["OCTET_STRING"; "OCTET_STRING"; "OCTET_STRING"; "OCTET_STRING"] (Cast "OCTET_STRING_t") [] (SpNone);
  (* src/ranap/RANAP_IMEIGroup.c:94-119 *)
  De "RANAP_IMEIGroup" ["SEQUENCE"; "SEQUENCE"; "SEQUENCE"; "SEQUENCE"] (Of "SEQUENCE") [El false 0 "RANAP_IMEIGroup" ["iMEI"] "RANAP_IMEI" "";
    El false 0 "RANAP_IMEIGroup" ["iMEIMask"] "BIT_STRING" "BIT_STRING_t";
    El true 1 "RANAP_IMEIGroup" ["iE_Extensions"] "RANAP_IE_Extensions" ""] (SpSeq "RANAP_IMEIGroup" ("RANAP_IMEIGroup", "_asn_ctx") [2] 1 0);
  (* src/ranap/RANAP_IMEIList.c:34-59 *)
  De "RANAP_IMEIList" ["SEQUENCE_OF"; "SEQUENCE_OF"; "SEQUENCE_OF"; "SEQUENCE_OF"] (Of "SEQUENCE_OF") [El true 0 "" [] "RANAP_IMEI" ""] (SpList "RANAP_IMEIList" ("RANAP_IMEIList", "_asn_ctx"));
  (* src/ranap/RANAP_IMEISV.c:142-166 *)
  De "RANAP_IMEISV" ["OCTET_STRING"; "OCTET_STRING"; "OCTET_STRING"; "OCTET_STRING"] (Cast "OCTET_STRING_t") [] (SpNone);
  (* src/ranap/RANAP_IMEISVGroup.c:94-119 *)
  De "RANAP_IMEISVGroup" ["SEQUENCE"; "SEQUENCE"; "SEQUENCE"; "SEQUENCE"] (Of "SEQUENCE") [El false 0 "RANAP_IMEISVGroup" ["iMEISV"] "RANAP_IMEISV" "";
    El false 0 "RANAP_IMEISVGroup" ["iMEISVMask"] "BIT_STRING" "BIT_STRING_t";
    El true 1 "RANAP_IMEISVGroup" ["iE_Extensions"] "RANAP_IE_Extensions" ""] (SpSeq "RANAP_IMEISVGroup" ("RANAP_IMEISVGroup", "_asn_ctx") [2] 1 0);
  (* src/ranap/RANAP_IMEISVList.c:34-59 *)
  De "RANAP_IMEISVList" ["SEQUENCE_OF"; "SEQUENCE_OF"; "SEQUENCE_OF"; "SEQUENCE_OF"] (Of "SEQUENCE_OF") [El true 0 "" [] "RANAP_IMEISV" ""] (SpList "RANAP_IMEISVList" ("RANAP_IMEISVList", "_asn_ctx"));
  (* src/ranap/RANAP_IMSI.c:142-166 *)
  De "RANAP_IMSI" ["OCTET_STRING"; "OCTET_STRING"; "OCTET_STRING"; "OCTET_STRING"] (Cast "OCTET_STRING_t") [] (SpNone);
  (* src/ranap/RANAP_IPMulticastAddress.c:142-166 *)
  De "RANAP_IPMulticastAddress" ["OCTET_STRING"; "OCTET_STRING"; "OCTET_STRING"; "OCTET_STRING"] (Cast "OCTET_STRING_t") [] (SpNone);
  (* src/ranap/RANAP_IRAT-Measurement-Configuration.c:128-153 *)
  De "RANAP_IRAT_Measurement_Configuration" ["SEQUENCE"; "SEQUENCE"; "SEQUENCE"; "SEQUENCE"] (Of "SEQUENCE") [El true 2 "RANAP_IRAT_Measurement_Configuration" ["rSRP"] "NativeInteger" "long";
    El true 1 "RANAP_IRAT_Measurement_Configuration" ["rSRQ"] "NativeInteger" "long";
    El false 0 "RANAP_IRAT_Measurement_Configuration" ["iRATmeasurementParameters"] "RANAP_IRATmeasurementParameters" "";
    El true 1 "RANAP_IRAT_Measurement_Configuration" ["iE_Extensions"] "RANAP_IE_Extensions" ""] (SpSeq "RANAP_IRAT_Measurement_Configuration" ("RANAP_IRAT_Measurement_Configuration", "_asn_ctx") [0; 1; 3] 3 0);
  (* src/ranap/RANAP_IRATmeasurementParameters.c:88-113 *)
  De "RANAP_IRATmeasurementParameters" ["SEQUENCE"; "SEQUENCE"; "SEQUENCE"; "SEQUENCE"] (Of "SEQUENCE") [El false 0 "RANAP_IRATmeasurementParameters" ["measurementDuration"] "NativeInteger" "long";
    El true 2 "RANAP_IRATmeasurementParameters" ["eUTRANFrequencies"] "RANAP_EUTRANFrequencies" "";
    El true 1 "RANAP_IRATmeasurementParameters" ["iE_Extensions"] "RANAP_IE_Extensions" ""] (SpSeq "RANAP_IRATmeasurementParameters" ("RANAP_IRATmeasurementParameters", "_asn_ctx") [1; 2] 2 0);
  (* src/ranap/RANAP_ImmediateMDT.c:68-93 *)
  De "RANAP_ImmediateMDT" ["SEQUENCE"; "SEQUENCE"; "SEQUENCE"; "SEQUENCE"] (Of "SEQUENCE") [El false 0 "RANAP_ImmediateMDT" ["measurementsToActivate"] "RANAP_MeasurementsToActivate" "";
    El true 3 "RANAP_ImmediateMDT" ["m1report"] "RANAP_M1Report" "";
    El true 2 "RANAP_ImmediateMDT" ["m2report"] "RANAP_M2Report" "";
    El true 1 "RANAP_ImmediateMDT" ["iE_Extensions"] "RANAP_IE_Extensions" ""] (SpSeq "RANAP_ImmediateMDT" ("RANAP_ImmediateMDT", "_asn_ctx") [1; 2; 3] 2 1);
  (* src/ranap/RANAP_IncludeVelocity.c:139-163 *)
  De "RANAP_IncludeVelocity" ["NativeEnumerated"; "NativeEnumerated"; "NativeEnumerated"; "NativeEnumerated"] (Of "NativeEnumerated") [] (SpInt false);
  (* src/ranap/RANAP_InformationExchangeID.c:141-165 *)
  De "RANAP_InformationExchangeID" ["NativeInteger"; "NativeInteger"; "NativeInteger"; "NativeInteger"] (Cast "long") [] (SpNone);
  (* src/ranap/RANAP_InformationExchangeType.c:143-167 *)
  De "RANAP_InformationExchangeType" ["NativeEnumerated"; "NativeEnumerated"; "NativeEnumerated"; "NativeEnumerated"] (Of "NativeEnumerated") [] (SpInt false);
  (* src/ranap/RANAP_InformationRequestType.c:49-72 *)
  De "RANAP_InformationRequestType" ["CHOICE"; "CHOICE"; "CHOICE"; "CHOICE"] (Of "CHOICE") [El false 0 "RANAP_InformationRequestType" ["choice"; "mBMSIPMulticastAddressandAPNRequest"] "RANAP_MBMSIPMulticastAddressandAPNRequest" "";
    El false 0 "RANAP_InformationRequestType" ["choice"; "permanentNAS_UE_ID"] "RANAP_PermanentNAS_UE_ID" ""] (SpChoice "RANAP_InformationRequestType" ("RANAP_InformationRequestType", "_asn_ctx") ("RANAP_InformationRequestType", "present") ("RANAP_InformationRequestType", "present"));
  (* src/ranap/RANAP_InformationRequested.c:49-72 *)
  De "RANAP_InformationRequested" ["CHOICE"; "CHOICE"; "CHOICE"; "CHOICE"] (Of "CHOICE") [El false 0 "RANAP_InformationRequested" ["choice"; "requestedMBMSIPMulticastAddressandAPNRequest"] "RANAP_RequestedMBMSIPMulticastAddressandAPNRequest" "";
    El false 0 "RANAP_InformationRequested" ["choice"; "requestedMulticastServiceList"] "RANAP_RequestedMulticastServiceList" ""] (SpChoice "RANAP_InformationRequested" ("RANAP_InformationRequested", "_asn_ctx") ("RANAP_InformationRequested", "present") ("RANAP_InformationRequested", "present"));
  (* src/ranap/RANAP_InformationTransferConfirmation.c:66-92 *)
  De "RANAP_InformationTransferConfirmation:informationTransferConfirmation_ies_2" ["SEQUENCE_OF"; "SEQUENCE_OF"; "SEQUENCE_OF"; "SEQUENCE_OF"] (Of "SEQUENCE_OF") [El true 0 "" [] "RANAP_IE" ""] (SpList "RANAP_InformationTransferConfirmation__informationTransferConfirmation_ies" ("RANAP_InformationTransferConfirmation__informationTransferConfirmation_ies", "_asn_ctx"));
  (* src/ranap/RANAP_InformationTransferConfirmation.c:120-145 *)
  De "RANAP_InformationTransferConfirmation" ["SEQUENCE"; "SEQUENCE"; "SEQUENCE"; "SEQUENCE"] (Of "SEQUENCE") [El false 0 "RANAP_InformationTransferConfirmation" ["informationTransferConfirmation_ies"] "RANAP_InformationTransferConfirmation:informationTransferConfirmation_ies_2" "A_SEQUENCE_OF"] (SpSeq "RANAP_InformationTransferConfirmation" ("RANAP_InformationTransferConfirmation", "_asn_ctx") [] 0 0);
  (* src/ranap/RANAP_InformationTransferFailure.c:66-92 *)
  De "RANAP_InformationTransferFailure:informationTransferFailure_ies_2" ["SEQUENCE_OF"; "SEQUENCE_OF"; "SEQUENCE_OF"; "SEQUENCE_OF"] (Of "SEQUENCE_OF") [El true 0 "" [] "RANAP_IE" ""] (SpList "RANAP_InformationTransferFailure__informationTransferFailure_ies" ("RANAP_InformationTransferFailure__informationTransferFailure_ies", "_asn_ctx"));
  (* src/ranap/RANAP_InformationTransferFailure.c:120-145 *)
  De "RANAP_InformationTransferFailure" ["SEQUENCE"; "SEQUENCE"; "SEQUENCE"; "SEQUENCE"] (Of "SEQUENCE") [El false 0 "RANAP_InformationTransferFailure" ["informationTransferFailure_ies"] "RANAP_InformationTransferFailure:informationTransferFailure_ies_2" "A_SEQUENCE_OF"] (SpSeq "RANAP_InformationTransferFailure" ("RANAP_InformationTransferFailure", "_asn_ctx") [] 0 0);
  (* src/ranap/RANAP_InformationTransferID.c:141-165 *)
  De "RANAP_InformationTransferID" ["NativeInteger"; "NativeInteger"; "NativeInteger"; "NativeInteger"] (Cast "long") [] (SpNone);
  (* src/ranap/RANAP_InformationTransferIndication.c:66-92 *)
  De "RANAP_InformationTransferIndication:informationTransferIndication_ies_2" ["SEQUENCE_OF"; "SEQUENCE_OF"; "SEQUENCE_OF"; "SEQUENCE_OF"] (Of "SEQUENCE_OF") [El true 0 "" [] "RANAP_IE" ""] (SpList "RANAP_InformationTransferIndication__informationTransferIndication_ies" ("RANAP_InformationTransferIndication__informationTransferIndication_ies", "_asn_ctx"));
  (* src/ranap/RANAP_InformationTransferIndication.c:120-145 *)
  De "RANAP_InformationTransferIndication" ["SEQUENCE"; "SEQUENCE"; "SEQUENCE"; "SEQUENCE"] (Of "SEQUENCE") [El false 0 "RANAP_InformationTransferIndication" ["informationTransferIndication_ies"] "RANAP_InformationTransferIndication:informationTransferIndication_ies_2" "A_SEQUENCE_OF"] (SpSeq "RANAP_InformationTransferIndication" ("RANAP_InformationTransferIndication", "_asn_ctx") [] 0 0);
  (* src/ranap/RANAP_InformationTransferType.c:39-62 *)
  De "RANAP_InformationTransferType" ["CHOICE"; "CHOICE"; "CHOICE"; "CHOICE"] (Of "CHOICE") [El false 0 "RANAP_InformationTransferType" ["choice"; "rNCTraceInformation"] "RANAP_RNCTraceInformation" ""] (SpChoice "RANAP_InformationTransferType" ("RANAP_InformationTransferType", "_asn_ctx") ("RANAP_InformationTransferType", "present") ("RANAP_InformationTransferType", "present"));
  (* src/ranap/RANAP_InitialUE-Message.c:66-92 *)
  De "RANAP_InitialUE-Message:initialUE_Message_ies_2" ["SEQUENCE_OF"; "SEQUENCE_OF"; "SEQUENCE_OF"; "SEQUENCE_OF"] (Of "SEQUENCE_OF") [El true 0 "" [] "RANAP_IE" ""] (SpList "RANAP_InitialUE_Message__initialUE_Message_ies" ("RANAP_InitialUE_Message__initialUE_Message_ies", "_asn_ctx"));
  (* src/ranap/RANAP_InitialUE-Message.c:120-145 *)
  De "RANAP_InitialUE_Message" ["SEQUENCE"; "SEQUENCE"; "SEQUENCE"; "SEQUENCE"] (Of "SEQUENCE") [El false 0 "RANAP_InitialUE_Message" ["initialUE_Message_ies"] "RANAP_InitialUE-Message:initialUE_Message_ies_2" "A_SEQUENCE_OF"] (SpSeq "RANAP_InitialUE_Message" ("RANAP_InitialUE_Message", "_asn_ctx") [] 0 0);
  (* src/ranap/RANAP_InitiatingMessage.c:56-81 *)
  De "RANAP_InitiatingMessage" ["SEQUENCE"; "SEQUENCE"; "SEQUENCE"; "SEQUENCE"] (Of "SEQUENCE") [El false 0 "RANAP_InitiatingMessage" ["procedureCode"] "RANAP_ProcedureCode" "";
    El false 0 "RANAP_InitiatingMessage" ["criticality"] "RANAP_Criticality" "";
    El false 0 "RANAP_InitiatingMessage" ["value"] "ANY" ""] (SpSeq "RANAP_InitiatingMessage" ("RANAP_InitiatingMessage", "_asn_ctx") [] 0 0);
  (* src/ranap/RANAP_IntegrityProtectionAlgorithm.c:141-165 *)
  De "RANAP_IntegrityProtectionAlgorithm" ["NativeInteger"; "NativeInteger"; "NativeInteger"; "NativeInteger"] (Cast "long") [] (SpNone);
  (* src/ranap/RANAP_IntegrityProtectionInformation.c:58-83 *)
  De "RANAP_IntegrityProtectionInformation" ["SEQUENCE"; "SEQUENCE"; "SEQUENCE"; "SEQUENCE"] (Of "SEQUENCE") [El false 0 "RANAP_IntegrityProtectionInformation" ["permittedAlgorithms"] "RANAP_PermittedIntegrityProtectionAlgorithms" "";
    El false 0 "RANAP_IntegrityProtectionInformation" ["key"] "RANAP_IntegrityProtectionKey" "";
    El true 1 "RANAP_IntegrityProtectionInformation" ["iE_Extensions"] "RANAP_IE_Extensions" ""] (SpSeq "RANAP_IntegrityProtectionInformation" ("RANAP_IntegrityProtectionInformation", "_asn_ctx") [2] 1 0);
  (* src/ranap/RANAP_IntegrityProtectionKey.c:147-171 *)
  De "RANAP_IntegrityProtectionKey" ["BIT_STRING"; "BIT_STRING"; "BIT_STRING"; "BIT_STRING"] (Cast "BIT_STRING_t") [] (SpNone);
  (* src/ranap/RANAP_InterSystemInformation-TransparentContainer.c:58-83 *)
  De "RANAP_InterSystemInformation_TransparentContainer" ["SEQUENCE"; "SEQUENCE"; "SEQUENCE"; "SEQUENCE"] (Of "SEQUENCE") [El true 3 "RANAP_InterSystemInformation_TransparentContainer" ["downlinkCellLoadInformation"] "RANAP_CellLoadInformation" "";
    El true 2 "RANAP_InterSystemInformation_TransparentContainer" ["uplinkCellLoadInformation"] "RANAP_CellLoadInformation" "";
    El true 1 "RANAP_InterSystemInformation_TransparentContainer" ["iE_Extensions"] "RANAP_IE_Extensions" ""] (SpSeq "RANAP_InterSystemInformation_TransparentContainer" ("RANAP_InterSystemInformation_TransparentContainer", "_asn_ctx") [0; 1; 2] 3 0);
  (* src/ranap/RANAP_InterSystemInformationTransferType.c:39-62 *)
  De "RANAP_InterSystemInformationTransferType" ["CHOICE"; "CHOICE"; "CHOICE"; "CHOICE"] (Of "CHOICE") [El false 0 "RANAP_InterSystemInformationTransferType" ["choice"; "rIM_Transfer"] "RANAP_RIM_Transfer" ""] (SpChoice "RANAP_InterSystemInformationTransferType" ("RANAP_InterSystemInformationTransferType", "_asn_ctx") ("RANAP_InterSystemInformationTransferType", "present") ("RANAP_InterSystemInformationTransferType", "present"));
  (* src/ranap/RANAP_InterfacesToTraceItem.c:150-175 *)
  De "RANAP_InterfacesToTraceItem:interface_2" ["NativeEnumerated"; "NativeEnumerated"; "NativeEnumerated"; "NativeEnumerated"] (Of "NativeEnumerated") [] (SpInt false);
  (* src/ranap/RANAP_InterfacesToTraceItem.c:215-240 *)
  De "RANAP_InterfacesToTraceItem" ["SEQUENCE"; "SEQUENCE"; "SEQUENCE"; "SEQUENCE"] (Of "SEQUENCE") [El false 0 "RANAP_InterfacesToTraceItem" ["interface"] "RANAP_InterfacesToTraceItem:interface_2" "";
    El true 1 "RANAP_InterfacesToTraceItem" ["iE_Extensions"] "RANAP_IE_Extensions" ""] (SpSeq "RANAP_InterfacesToTraceItem" ("RANAP_InterfacesToTraceItem", "_asn_ctx") [1] 1 0);
  (* src/ranap/RANAP_Iu-ReleaseCommand.c:66-92 *)
  De "RANAP_Iu-ReleaseCommand:iu_ReleaseCommand_ies_2" ["SEQUENCE_OF"; "SEQUENCE_OF"; "SEQUENCE_OF"; "SEQUENCE_OF"] (Of "SEQUENCE_OF") [El true 0 "" [] "RANAP_IE" ""] (SpList "RANAP_Iu_ReleaseCommand__iu_ReleaseCommand_ies" ("RANAP_Iu_ReleaseCommand__iu_ReleaseCommand_ies", "_asn_ctx"));
  (* src/ranap/RANAP_Iu-ReleaseCommand.c:120-145 *)
  De "RANAP_Iu_ReleaseCommand" ["SEQUENCE"; "SEQUENCE"; "SEQUENCE"; "SEQUENCE"] (Of "SEQUENCE") [El false 0 "RANAP_Iu_ReleaseCommand" ["iu_ReleaseCommand_ies"] "RANAP_Iu-ReleaseCommand:iu_ReleaseCommand_ies_2" "A_SEQUENCE_OF"] (SpSeq "RANAP_Iu_ReleaseCommand" ("RANAP_Iu_ReleaseCommand", "_asn_ctx") [] 0 0);
  (* src/ranap/RANAP_Iu-ReleaseComplete.c:66-92 *)
  De "RANAP_Iu-ReleaseComplete:iu_ReleaseComplete_ies_2" ["SEQUENCE_OF"; "SEQUENCE_OF"; "SEQUENCE_OF"; "SEQUENCE_OF"] (Of "SEQUENCE_OF") [El true 0 "" [] "RANAP_IE" ""] (SpList "RANAP_Iu_ReleaseComplete__iu_ReleaseComplete_ies" ("RANAP_Iu_ReleaseComplete__iu_ReleaseComplete_ies", "_asn_ctx"));
  (* src/ranap/RANAP_Iu-ReleaseComplete.c:120-145 *)
  De "RANAP_Iu_ReleaseComplete" ["SEQUENCE"; "SEQUENCE"; "SEQUENCE"; "SEQUENCE"] (Of "SEQUENCE") [El false 0 "RANAP_Iu_ReleaseComplete" ["iu_ReleaseComplete_ies"] "RANAP_Iu-ReleaseComplete:iu_ReleaseComplete_ies_2" "A_SEQUENCE_OF"] (SpSeq "RANAP_Iu_ReleaseComplete" ("RANAP_Iu_ReleaseComplete", "_asn_ctx") [] 0 0);
  (* src/ranap/RANAP_Iu-ReleaseRequest.c:66-92 *)
  De "RANAP_Iu-ReleaseRequest:iu_ReleaseRequest_ies_2" ["SEQUENCE_OF"; "SEQUENCE_OF"; "SEQUENCE_OF"; "SEQUENCE_OF"] (Of "SEQUENCE_OF") [El true 0 "" [] "RANAP_IE" ""] (SpList "RANAP_Iu_ReleaseRequest__iu_ReleaseRequest_ies" ("RANAP_Iu_ReleaseRequest__iu_ReleaseRequest_ies", "_asn_ctx"));
  (* src/ranap/RANAP_Iu-ReleaseRequest.c:120-145 *)
  De "RANAP_Iu_ReleaseRequest" ["SEQUENCE"; "SEQUENCE"; "SEQUENCE"; "SEQUENCE"] (Of "SEQUENCE") [El false 0 "RANAP_Iu_ReleaseRequest" ["iu_ReleaseRequest_ies"] "RANAP_Iu-ReleaseRequest:iu_ReleaseRequest_ies_2" "A_SEQUENCE_OF"] (SpSeq "RANAP_Iu_ReleaseRequest" ("RANAP_Iu_ReleaseRequest", "_asn_ctx") [] 0 0);
  (* src/ranap/RANAP_IuSigConId-IE-ContainerList.c:34-59 *)
  De "RANAP_IuSigConId_IE_ContainerList" ["SEQUENCE_OF"; "SEQUENCE_OF"; "SEQUENCE_OF"; "SEQUENCE_OF"] (Of "SEQUENCE_OF") [El true 0 "" [] "RANAP_ProtocolIE_Container" ""] (SpList "RANAP_IuSigConId_IE_ContainerList" ("RANAP_IuSigConId_IE_ContainerList", "_asn_ctx"));
  (* src/ranap/RANAP_IuSignallingConnectionIdentifier.c:147-171 *)
  De "RANAP_IuSignallingConnectionIdentifier" ["BIT_STRING"; "BIT_STRING"; "BIT_STRING"; "BIT_STRING"] (Cast "BIT_STRING_t") [] (SpNone);
  (* src/ranap/RANAP_IuTransportAssociation.c:49-72 *)
  De "RANAP_IuTransportAssociation" ["CHOICE"; "CHOICE"; "CHOICE"; "CHOICE"] (Of "CHOICE") [El false 0 "RANAP_IuTransportAssociation" ["choice"; "gTP_TEI"] "RANAP_GTP_TEI" "";
    El false 0 "RANAP_IuTransportAssociation" ["choice"; "bindingID"] "RANAP_BindingID" ""] (SpChoice "RANAP_IuTransportAssociation" ("RANAP_IuTransportAssociation", "_asn_ctx") ("RANAP_IuTransportAssociation", "present") ("RANAP_IuTransportAssociation", "present"));
  (* src/ranap/RANAP_JoinedMBMSBearerService-IEs-Value.c:58-83 *)
  De "RANAP_JoinedMBMSBearerService_IEs_Value" ["SEQUENCE"; "SEQUENCE"; "SEQUENCE"; "SEQUENCE"] (Of "SEQUENCE") [El false 0 "RANAP_JoinedMBMSBearerService_IEs_Value" ["tMGI"] "RANAP_TMGI" "";
    El false 0 "RANAP_JoinedMBMSBearerService_IEs_Value" ["mBMS_PTP_RAB_ID"] "RANAP_MBMS_PTP_RAB_ID" "";
    El true 1 "RANAP_JoinedMBMSBearerService_IEs_Value" ["iE_Extensions"] "RANAP_ProtocolExtensionContainer" ""] (SpSeq "RANAP_JoinedMBMSBearerService_IEs_Value" ("RANAP_JoinedMBMSBearerService_IEs_Value", "_asn_ctx") [2] 1 0);
  (* src/ranap/RANAP_JoinedMBMSBearerService-IEs.c:34-59 *)
  De "RANAP_JoinedMBMSBearerService_IEs" ["SEQUENCE_OF"; "SEQUENCE_OF"; "SEQUENCE_OF"; "SEQUENCE_OF"] (Of "SEQUENCE_OF") [El true 0 "" [] "RANAP_JoinedMBMSBearerService_IEs_Value" ""] (SpList "RANAP_JoinedMBMSBearerService_IEs" ("RANAP_JoinedMBMSBearerService_IEs", "_asn_ctx"));
  (* src/ranap/RANAP_KeyStatus.c:143-167 *)
  De "RANAP_KeyStatus" ["NativeEnumerated"; "NativeEnumerated"; "NativeEnumerated"; "NativeEnumerated"] (Of "NativeEnumerated") [] (SpInt false);
  (* src/ranap/RANAP_L3-Information.c:119-143 *)
  De "RANAP_L3_Information" ["OCTET_STRING"; "OCTET_STRING"; "OCTET_STRING"; "OCTET_STRING"] (Of "OCTET_STRING") [] (SpNone);
  (* src/ranap/RANAP_LA-LIST-Value.c:58-83 *)
  De "RANAP_LA_LIST_Value" ["SEQUENCE"; "SEQUENCE"; "SEQUENCE"; "SEQUENCE"] (Of "SEQUENCE") [El false 0 "RANAP_LA_LIST_Value" ["lAC"] "RANAP_LAC" "";
    El false 0 "RANAP_LA_LIST_Value" ["listOF_SNAs"] "RANAP_ListOF_SNAs" "";
    El true 1 "RANAP_LA_LIST_Value" ["iE_Extensions"] "RANAP_IE_Extensions" ""] (SpSeq "RANAP_LA_LIST_Value" ("RANAP_LA_LIST_Value", "_asn_ctx") [2] 1 0);
  (* src/ranap/RANAP_LA-LIST.c:34-59 *)
  De "RANAP_LA_LIST" ["SEQUENCE_OF"; "SEQUENCE_OF"; "SEQUENCE_OF"; "SEQUENCE_OF"] (Of "SEQUENCE_OF") [El true 0 "" [] "RANAP_LA_LIST_Value" ""] (SpList "RANAP_LA_LIST" ("RANAP_LA_LIST", "_asn_ctx"));
  (* src/ranap/RANAP_LABased.c:48-73 *)
  De "RANAP_LABased" ["SEQUENCE"; "SEQUENCE"; "SEQUENCE"; "SEQUENCE"] (Of "SEQUENCE") [El false 0 "RANAP_LABased" ["laiList"] "RANAP_LAI_List" "";
    El true 1 "RANAP_LABased" ["iE_Extensions"] "RANAP_IE_Extensions" ""] (SpSeq "RANAP_LABased" ("RANAP_LABased", "_asn_ctx") [1] 1 0);
  (* src/ranap/RANAP_LAC.c:142-166 *)
  De "RANAP_LAC" ["OCTET_STRING"; "OCTET_STRING"; "OCTET_STRING"; "OCTET_STRING"] (Cast "OCTET_STRING_t") [] (SpNone);
  (* src/ranap/RANAP_LAI-List.c:34-59 *)
  De "RANAP_LAI_List" ["SEQUENCE_OF"; "SEQUENCE_OF"; "SEQUENCE_OF"; "SEQUENCE_OF"] (Of "SEQUENCE_OF") [El true 0 "" [] "RANAP_LAI" ""] (SpList "RANAP_LAI_List" ("RANAP_LAI_List", "_asn_ctx"));
  (* src/ranap/RANAP_LAI.c:58-83 *)
  De "RANAP_LAI" ["SEQUENCE"; "SEQUENCE"; "SEQUENCE"; "SEQUENCE"] (Of "SEQUENCE") [El false 0 "RANAP_LAI" ["pLMNidentity"] "RANAP_PLMNidentity" "";
    El false 0 "RANAP_LAI" ["lAC"] "RANAP_LAC" "";
    El true 1 "RANAP_LAI" ["iE_Extensions"] "RANAP_IE_Extensions" ""] (SpSeq "RANAP_LAI" ("RANAP_LAI", "_asn_ctx") [2] 1 0);
  (* src/ranap/RANAP_LAListofIdleModeUEs.c:34-59 *)
  De "RANAP_LAListofIdleModeUEs" ["SEQUENCE_OF"; "SEQUENCE_OF"; "SEQUENCE_OF"; "SEQUENCE_OF"] (Of "SEQUENCE_OF") [El true 0 "" [] "RANAP_LAI" ""] (SpList "RANAP_LAListofIdleModeUEs" ("RANAP_LAListofIdleModeUEs", "_asn_ctx"));
  (* src/ranap/RANAP_LHN-ID.c:142-166 *)
  De "RANAP_LHN_ID" ["OCTET_STRING"; "OCTET_STRING"; "OCTET_STRING"; "OCTET_STRING"] (Cast "OCTET_STRING_t") [] (SpNone);
  (* src/ranap/RANAP_LastKnownServiceArea.c:88-113 *)
  De "RANAP_LastKnownServiceArea" ["SEQUENCE"; "SEQUENCE"; "SEQUENCE"; "SEQUENCE"] (Of "SEQUENCE") [El false 0 "RANAP_LastKnownServiceArea" ["sAI"] "RANAP_SAI" "";
    El false 0 "RANAP_LastKnownServiceArea" ["ageOfSAI"] "NativeInteger" "long";
    El true 1 "RANAP_LastKnownServiceArea" ["iE_Extensions"] "RANAP_IE_Extensions" ""] (SpSeq "RANAP_LastKnownServiceArea" ("RANAP_LastKnownServiceArea", "_asn_ctx") [2] 1 0);
  (* src/ranap/RANAP_LastVisitedUTRANCell-Item.c:68-93 *)
  De "RANAP_LastVisitedUTRANCell_Item" ["SEQUENCE"; "SEQUENCE"; "SEQUENCE"; "SEQUENCE"] (Of "SEQUENCE") [El false 0 "RANAP_LastVisitedUTRANCell_Item" ["uTRAN_CellID"] "RANAP_UTRAN_CellID" "";
    El false 0 "RANAP_LastVisitedUTRANCell_Item" ["cellType"] "RANAP_CellType" "";
    El false 0 "RANAP_LastVisitedUTRANCell_Item" ["time_UE_StayedInCell"] "RANAP_Time_UE_StayedInCell" "";
    El true 1 "RANAP_LastVisitedUTRANCell_Item" ["iE_Extensions"] "RANAP_IE_Extensions" ""] (SpSeq "RANAP_LastVisitedUTRANCell_Item" ("RANAP_LastVisitedUTRANCell_Item", "_asn_ctx") [3] 1 0);
  (* src/ranap/RANAP_LeftMBMSBearerService-IEs-Value.c:48-73 *)
  De "RANAP_LeftMBMSBearerService_IEs_Value" ["SEQUENCE"; "SEQUENCE"; "SEQUENCE"; "SEQUENCE"] (Of "SEQUENCE") [El false 0 "RANAP_LeftMBMSBearerService_IEs_Value" ["tMGI"] "RANAP_TMGI" "";
    El true 1 "RANAP_LeftMBMSBearerService_IEs_Value" ["iE_Extensions"] "RANAP_ProtocolExtensionContainer" ""] (SpSeq "RANAP_LeftMBMSBearerService_IEs_Value" ("RANAP_LeftMBMSBearerService_IEs_Value", "_asn_ctx") [1] 1 0);
  (* src/ranap/RANAP_LeftMBMSBearerService-IEs.c:34-59 *)
  De "RANAP_LeftMBMSBearerService_IEs" ["SEQUENCE_OF"; "SEQUENCE_OF"; "SEQUENCE_OF"; "SEQUENCE_OF"] (Of "SEQUENCE_OF") [El true 0 "" [] "RANAP_LeftMBMSBearerService_IEs_Value" ""] (SpList "RANAP_LeftMBMSBearerService_IEs" ("RANAP_LeftMBMSBearerService_IEs", "_asn_ctx"));
  (* src/ranap/RANAP_Links-to-log.c:145-169 *)
  De "RANAP_Links_to_log" ["NativeEnumerated"; "NativeEnumerated"; "NativeEnumerated"; "NativeEnumerated"] (Of "NativeEnumerated") [] (SpInt false);
  (* src/ranap/RANAP_ListOF-SNAs.c:34-59 *)
  De "RANAP_ListOF_SNAs" ["SEQUENCE_OF"; "SEQUENCE_OF"; "SEQUENCE_OF"; "SEQUENCE_OF"] (Of "SEQUENCE_OF") [El true 0 "" [] "RANAP_SNAC" ""] (SpList "RANAP_ListOF_SNAs" ("RANAP_ListOF_SNAs", "_asn_ctx"));
  (* src/ranap/RANAP_ListOfInterfacesToTrace.c:34-59 *)
  De "RANAP_ListOfInterfacesToTrace" ["SEQUENCE_OF"; "SEQUENCE_OF"; "SEQUENCE_OF"; "SEQUENCE_OF"] (Of "SEQUENCE_OF") [El true 0 "" [] "RANAP_InterfacesToTraceItem" ""] (SpList "RANAP_ListOfInterfacesToTrace" ("RANAP_ListOfInterfacesToTrace", "_asn_ctx"));
  (* src/ranap/RANAP_LoadValue.c:141-165 *)
  De "RANAP_LoadValue" ["NativeInteger"; "NativeInteger"; "NativeInteger"; "NativeInteger"] (Cast "long") [] (SpNone);
  (* src/ranap/RANAP_LocationRelatedDataFailure.c:66-92 *)
  De "RANAP_LocationRelatedDataFailure:locationRelatedDataFailure_ies_2" ["SEQUENCE_OF"; "SEQUENCE_OF"; "SEQUENCE_OF"; "SEQUENCE_OF"] (Of "SEQUENCE_OF") [El true 0 "" [] "RANAP_IE" ""] (SpList "RANAP_LocationRelatedDataFailure__locationRelatedDataFailure_ies" ("RANAP_LocationRelatedDataFailure__locationRelatedDataFailure_ies", "_asn_ctx"));
  (* src/ranap/RANAP_LocationRelatedDataFailure.c:120-145 *)
  De "RANAP_LocationRelatedDataFailure" ["SEQUENCE"; "SEQUENCE"; "SEQUENCE"; "SEQUENCE"] (Of "SEQUENCE") [El false 0 "RANAP_LocationRelatedDataFailure" ["locationRelatedDataFailure_ies"] "RANAP_LocationRelatedDataFailure:locationRelatedDataFailure_ies_2" "A_SEQUENCE_OF"] (SpSeq "RANAP_LocationRelatedDataFailure" ("RANAP_LocationRelatedDataFailure", "_asn_ctx") [] 0 0);
  (* src/ranap/RANAP_LocationRelatedDataRequest.c:66-92 *)
  De "RANAP_LocationRelatedDataRequest:locationRelatedDataRequest_ies_2" ["SEQUENCE_OF"; "SEQUENCE_OF"; "SEQUENCE_OF"; "SEQUENCE_OF"] (Of "SEQUENCE_OF") [El true 0 "" [] "RANAP_IE" ""] (SpList "RANAP_LocationRelatedDataRequest__locationRelatedDataRequest_ies" ("RANAP_LocationRelatedDataRequest__locationRelatedDataRequest_ies", "_asn_ctx"));
  (* src/ranap/RANAP_LocationRelatedDataRequest.c:120-145 *)
  De "RANAP_LocationRelatedDataRequest" ["SEQUENCE"; "SEQUENCE"; "SEQUENCE"; "SEQUENCE"] (Of "SEQUENCE") [El false 0 "RANAP_LocationRelatedDataRequest" ["locationRelatedDataRequest_ies"] "RANAP_LocationRelatedDataRequest:locationRelatedDataRequest_ies_2" "A_SEQUENCE_OF"] (SpSeq "RANAP_LocationRelatedDataRequest" ("RANAP_LocationRelatedDataRequest", "_asn_ctx") [] 0 0);
  (* src/ranap/RANAP_LocationRelatedDataRequestType.c:48-73 *)
  De "RANAP_LocationRelatedDataRequestType" ["SEQUENCE"; "SEQUENCE"; "SEQUENCE"; "SEQUENCE"] (Of "SEQUENCE") [El false 0 "RANAP_LocationRelatedDataRequestType" ["requestedLocationRelatedDataType"] "RANAP_RequestedLocationRelatedDataType" "";
    El true 1 "RANAP_LocationRelatedDataRequestType" ["requestedGPSAssistanceData"] "RANAP_RequestedGPSAssistanceData" ""] (SpSeq "RANAP_LocationRelatedDataRequestType" ("RANAP_LocationRelatedDataRequestType", "_asn_ctx") [1] 1 0);
  (* src/ranap/RANAP_LocationRelatedDataRequestTypeSpecificToGERANIuMode.c:145-169 *)
  De "RANAP_LocationRelatedDataRequestTypeSpecificToGERANIuMode" ["NativeEnumerated"; "NativeEnumerated"; "NativeEnumerated"; "NativeEnumerated"] (Of "NativeEnumerated") [] (SpInt false);
  (* src/ranap/RANAP_LocationRelatedDataResponse.c:66-92 *)
  De "RANAP_LocationRelatedDataResponse:locationRelatedDataResponse_ies_2" ["SEQUENCE_OF"; "SEQUENCE_OF"; "SEQUENCE_OF"; "SEQUENCE_OF"] (Of "SEQUENCE_OF") [El true 0 "" [] "RANAP_IE" ""] (SpList "RANAP_LocationRelatedDataResponse__locationRelatedDataResponse_ies" ("RANAP_LocationRelatedDataResponse__locationRelatedDataResponse_ies", "_asn_ctx"));
  (* src/ranap/RANAP_LocationRelatedDataResponse.c:120-145 *)
  De "RANAP_LocationRelatedDataResponse" ["SEQUENCE"; "SEQUENCE"; "SEQUENCE"; "SEQUENCE"] (Of "SEQUENCE") [El false 0 "RANAP_LocationRelatedDataResponse" ["locationRelatedDataResponse_ies"] "RANAP_LocationRelatedDataResponse:locationRelatedDataResponse_ies_2" "A_SEQUENCE_OF"] (SpSeq "RANAP_LocationRelatedDataResponse" ("RANAP_LocationRelatedDataResponse", "_asn_ctx") [] 0 0);
  (* src/ranap/RANAP_LocationReport.c:66-92 *)
  De "RANAP_LocationReport:locationReport_ies_2" ["SEQUENCE_OF"; "SEQUENCE_OF"; "SEQUENCE_OF"; "SEQUENCE_OF"] (Of "SEQUENCE_OF") [El true 0 "" [] "RANAP_IE" ""] (SpList "RANAP_LocationReport__locationReport_ies" ("RANAP_LocationReport__locationReport_ies", "_asn_ctx"));
  (* src/ranap/RANAP_LocationReport.c:120-145 *)
  De "RANAP_LocationReport" ["SEQUENCE"; "SEQUENCE"; "SEQUENCE"; "SEQUENCE"] (Of "SEQUENCE") [El false 0 "RANAP_LocationReport" ["locationReport_ies"] "RANAP_LocationReport:locationReport_ies_2" "A_SEQUENCE_OF"] (SpSeq "RANAP_LocationReport" ("RANAP_LocationReport", "_asn_ctx") [] 0 0);
  (* src/ranap/RANAP_LocationReportingControl.c:66-92 *)
  De "RANAP_LocationReportingControl:locationReportingControl_ies_2" ["SEQUENCE_OF"; "SEQUENCE_OF"; "SEQUENCE_OF"; "SEQUENCE_OF"] (Of "SEQUENCE_OF") [El true 0 "" [] "RANAP_IE" ""] (SpList "RANAP_LocationReportingControl__locationReportingControl_ies" ("RANAP_LocationReportingControl__locationReportingControl_ies", "_asn_ctx"));
  (* src/ranap/RANAP_LocationReportingControl.c:120-145 *)
  De "RANAP_LocationReportingControl" ["SEQUENCE"; "SEQUENCE"; "SEQUENCE"; "SEQUENCE"] (Of "SEQUENCE") [El false 0 "RANAP_LocationReportingControl" ["locationReportingControl_ies"] "RANAP_LocationReportingControl:locationReportingControl_ies_2" "A_SEQUENCE_OF"] (SpSeq "RANAP_LocationReportingControl" ("RANAP_LocationReportingControl", "_asn_ctx") [] 0 0);
  (* src/ranap/RANAP_LocationReportingTransferInformation.c:148-173 *)
  De "RANAP_LocationReportingTransferInformation" ["SEQUENCE"; "SEQUENCE"; "SEQUENCE"; "SEQUENCE"] (Of "SEQUENCE") [El true 12 "RANAP_LocationReportingTransferInformation" ["reportChangeOfSAI"] "RANAP_ReportChangeOfSAI" "";
    El true 11 "RANAP_LocationReportingTransferInformation" ["periodicReportingIndicator"] "RANAP_PeriodicReportingIndicator" "";
    El true 10 "RANAP_LocationReportingTransferInformation" ["directReportingIndicator"] "RANAP_DirectReportingIndicator" "";
    El true 9 "RANAP_LocationReportingTransferInformation" ["verticalAccuracyCode"] "RANAP_VerticalAccuracyCode" "";
    El true 8 "RANAP_LocationReportingTransferInformation" ["positioningPriorityChangeSAI"] "RANAP_PositioningPriority" "";
    El true 7 "RANAP_LocationReportingTransferInformation" ["positioningPriorityDirect"] "RANAP_PositioningPriority" "";
    El true 6 "RANAP_LocationReportingTransferInformation" ["clientTypePeriodic"] "RANAP_ClientType" "";
    El true 5 "RANAP_LocationReportingTransferInformation" ["clientTypeDirect"] "RANAP_ClientType" "";
    El true 4 "RANAP_LocationReportingTransferInformation" ["responseTime"] "RANAP_ResponseTime" "";
    El true 3 "RANAP_LocationReportingTransferInformation" ["includeVelocity"] "RANAP_IncludeVelocity" "";
    El true 2 "RANAP_LocationReportingTransferInformation" ["periodicLocationInfo"] "RANAP_PeriodicLocationInfo" "";
    El true 1 "RANAP_LocationReportingTransferInformation" ["iE_Extensions"] "RANAP_IE_Extensions" ""] (SpSeq "RANAP_LocationReportingTransferInformation" ("RANAP_LocationReportingTransferInformation", "_asn_ctx") [0; 1; 2; 3; 4; 5; 6; 7; 8; 9; 10; 11] 12 0);
  (* src/ranap/RANAP_LoggedMDT.c:58-83 *)
  De "RANAP_LoggedMDT" ["SEQUENCE"; "SEQUENCE"; "SEQUENCE"; "SEQUENCE"] (Of "SEQUENCE") [El false 0 "RANAP_LoggedMDT" ["loggingInterval"] "RANAP_LoggingInterval" "";
    El false 0 "RANAP_LoggedMDT" ["loggingDuration"] "RANAP_LoggingDuration" "";
    El true 1 "RANAP_LoggedMDT" ["iE_Extensions"] "RANAP_IE_Extensions" ""] (SpSeq "RANAP_LoggedMDT" ("RANAP_LoggedMDT", "_asn_ctx") [2] 1 0);
  (* src/ranap/RANAP_LoggingDuration.c:151-175 *)
  De "RANAP_LoggingDuration" ["NativeEnumerated"; "NativeEnumerated"; "NativeEnumerated"; "NativeEnumerated"] (Of "NativeEnumerated") [] (SpInt false);
  (* src/ranap/RANAP_LoggingInterval.c:155-179 *)
  De "RANAP_LoggingInterval" ["NativeEnumerated"; "NativeEnumerated"; "NativeEnumerated"; "NativeEnumerated"] (Of "NativeEnumerated") [] (SpInt false);
  (* src/ranap/RANAP_M1Report.c:49-72 *)
  De "RANAP_M1Report" ["CHOICE"; "CHOICE"; "CHOICE"; "CHOICE"] (Of "CHOICE") [El false 0 "RANAP_M1Report" ["choice"; "periodic"] "RANAP_MDT_Report_Parameters" "";
    El false 0 "RANAP_M1Report" ["choice"; "event1F"] "RANAP_Event1F_Parameters" ""] (SpChoice "RANAP_M1Report" ("RANAP_M1Report", "_asn_ctx") ("RANAP_M1Report", "present") ("RANAP_M1Report", "present"));
  (* src/ranap/RANAP_M2Report.c:49-72 *)
  De "RANAP_M2Report" ["CHOICE"; "CHOICE"; "CHOICE"; "CHOICE"] (Of "CHOICE") [El false 0 "RANAP_M2Report" ["choice"; "periodic"] "RANAP_MDT_Report_Parameters" "";
    El false 0 "RANAP_M2Report" ["choice"; "event1I"] "RANAP_Event1I_Parameters" ""] (SpChoice "RANAP_M2Report" ("RANAP_M2Report", "_asn_ctx") ("RANAP_M2Report", "present") ("RANAP_M2Report", "present"));
  (* src/ranap/RANAP_M4-Collection-Parameters.c:58-83 *)
  De "RANAP_M4_Collection_Parameters" ["SEQUENCE"; "SEQUENCE"; "SEQUENCE"; "SEQUENCE"] (Of "SEQUENCE") [El false 0 "RANAP_M4_Collection_Parameters" ["m4_period"] "RANAP_M4_Period" "";
    El true 2 "RANAP_M4_Collection_Parameters" ["m4_threshold"] "RANAP_M4_Threshold" "";
    El true 1 "RANAP_M4_Collection_Parameters" ["iE_Extensions"] "RANAP_IE_Extensions" ""] (SpSeq "RANAP_M4_Collection_Parameters" ("RANAP_M4_Collection_Parameters", "_asn_ctx") [1; 2] 2 0);
  (* src/ranap/RANAP_M4-Period.c:155-179 *)
  De "RANAP_M4_Period" ["NativeEnumerated"; "NativeEnumerated"; "NativeEnumerated"; "NativeEnumerated"] (Of "NativeEnumerated") [] (SpInt false);
  (* src/ranap/RANAP_M4-Threshold.c:141-165 *)
  De "RANAP_M4_Threshold" ["NativeInteger"; "NativeInteger"; "NativeInteger"; "NativeInteger"] (Cast "long") [] (SpNone);
  (* src/ranap/RANAP_M4Report.c:49-72 *)
  De "RANAP_M4Report" ["CHOICE"; "CHOICE"; "CHOICE"; "CHOICE"] (Of "CHOICE") [El false 0 "RANAP_M4Report" ["choice"; "all"] "NULL" "";
    El false 0 "RANAP_M4Report" ["choice"; "m4_collection_parameters"] "RANAP_M4_Collection_Parameters" ""] (SpChoice "RANAP_M4Report" ("RANAP_M4Report", "_asn_ctx") ("RANAP_M4Report", "present") ("RANAP_M4Report", "present"));
  (* src/ranap/RANAP_M5-Period.c:155-179 *)
  De "RANAP_M5_Period" ["NativeEnumerated"; "NativeEnumerated"; "NativeEnumerated"; "NativeEnumerated"] (Of "NativeEnumerated") [] (SpInt false);
  (* src/ranap/RANAP_M5Report.c:49-72 *)
  De "RANAP_M5Report" ["CHOICE"; "CHOICE"; "CHOICE"; "CHOICE"] (Of "CHOICE") [El false 0 "RANAP_M5Report" ["choice"; "when_available"] "NULL" "";
    El false 0 "RANAP_M5Report" ["choice"; "m5_period"] "RANAP_M5_Period" ""] (SpChoice "RANAP_M5Report" ("RANAP_M5Report", "_asn_ctx") ("RANAP_M5Report", "present") ("RANAP_M5Report", "present"));
  (* src/ranap/RANAP_M6-Period.c:165-189 *)
  De "RANAP_M6_Period" ["NativeEnumerated"; "NativeEnumerated"; "NativeEnumerated"; "NativeEnumerated"] (Of "NativeEnumerated") [] (SpInt false);
  (* src/ranap/RANAP_M6Report.c:58-83 *)
  De "RANAP_M6Report" ["SEQUENCE"; "SEQUENCE"; "SEQUENCE"; "SEQUENCE"] (Of "SEQUENCE") [El false 0 "RANAP_M6Report" ["m6_period"] "RANAP_M6_Period" "";
    El false 0 "RANAP_M6Report" ["m6_links_to_log"] "RANAP_Links_to_log" "";
    El true 1 "RANAP_M6Report" ["iE_Extensions"] "RANAP_IE_Extensions" ""] (SpSeq "RANAP_M6Report" ("RANAP_M6Report", "_asn_ctx") [2] 1 0);
  (* src/ranap/RANAP_M7-Period.c:165-189 *)
  De "RANAP_M7_Period" ["NativeEnumerated"; "NativeEnumerated"; "NativeEnumerated"; "NativeEnumerated"] (Of "NativeEnumerated") [] (SpInt false);
  (* src/ranap/RANAP_M7Report.c:58-83 *)
  De "RANAP_M7Report" ["SEQUENCE"; "SEQUENCE"; "SEQUENCE"; "SEQUENCE"] (Of "SEQUENCE") [El false 0 "RANAP_M7Report" ["m7_period"] "RANAP_M7_Period" "";
    El false 0 "RANAP_M7Report" ["m7_links_to_log"] "RANAP_Links_to_log" "";
    El true 1 "RANAP_M7Report" ["iE_Extensions"] "RANAP_IE_Extensions" ""] (SpSeq "RANAP_M7Report" ("RANAP_M7Report", "_asn_ctx") [2] 1 0);
  (* src/ranap/RANAP_MBMS-PTP-RAB-ID.c:147-171 *)
  De "RANAP_MBMS_PTP_RAB_ID" ["BIT_STRING"; "BIT_STRING"; "BIT_STRING"; "BIT_STRING"] (Cast "BIT_STRING_t") [] (SpNone);
  (* src/ranap/RANAP_MBMSBearerServiceType.c:143-167 *)
  De "RANAP_MBMSBearerServiceType" ["NativeEnumerated"; "NativeEnumerated"; "NativeEnumerated"; "NativeEnumerated"] (Of "NativeEnumerated") [] (SpInt false);
  (* src/ranap/RANAP_MBMSCNDe-Registration.c:143-167 *)
  De "RANAP_MBMSCNDe_Registration" ["NativeEnumerated"; "NativeEnumerated"; "NativeEnumerated"; "NativeEnumerated"] (Of "NativeEnumerated") [] (SpInt false);
  (* src/ranap/RANAP_MBMSCNDe-RegistrationRequest.c:66-92 *)
  De "RANAP_MBMSCNDe-RegistrationRequest:mbmscnDe_RegistrationRequest_ies_2" ["SEQUENCE_OF"; "SEQUENCE_OF"; "SEQUENCE_OF"; "SEQUENCE_OF"] (Of "SEQUENCE_OF") [El true 0 "" [] "RANAP_IE" ""] (SpList "RANAP_MBMSCNDe_RegistrationRequest__mbmscnDe_RegistrationRequest_ies" ("RANAP_MBMSCNDe_RegistrationRequest__mbmscnDe_RegistrationRequest_ies", "_asn_ctx"));
  (* src/ranap/RANAP_MBMSCNDe-RegistrationRequest.c:120-145 *)
  De "RANAP_MBMSCNDe_RegistrationRequest" ["SEQUENCE"; "SEQUENCE"; "SEQUENCE"; "SEQUENCE"] (Of "SEQUENCE") [El false 0 "RANAP_MBMSCNDe_RegistrationRequest" ["mbmscnDe_RegistrationRequest_ies"] "RANAP_MBMSCNDe-RegistrationRequest:mbmscnDe_RegistrationRequest_ies_2" "A_SEQUENCE_OF"] (SpSeq "RANAP_MBMSCNDe_RegistrationRequest" ("RANAP_MBMSCNDe_RegistrationRequest", "_asn_ctx") [] 0 0);
  (* src/ranap/RANAP_MBMSCNDe-RegistrationResponse.c:66-92 *)
  De "RANAP_MBMSCNDe-RegistrationResponse:mbmscnDe_RegistrationResponse_ies_2" ["SEQUENCE_OF"; "SEQUENCE_OF"; "SEQUENCE_OF"; "SEQUENCE_OF"] (Of "SEQUENCE_OF") [El true 0 "" [] "RANAP_IE" ""] (SpList "RANAP_MBMSCNDe_RegistrationResponse__mbmscnDe_RegistrationResponse_ies" ("RANAP_MBMSCNDe_RegistrationResponse__mbmscnDe_RegistrationResponse_ies", "_asn_ctx"));
  (* src/ranap/RANAP_MBMSCNDe-RegistrationResponse.c:120-145 *)
  De "RANAP_MBMSCNDe_RegistrationResponse" ["SEQUENCE"; "SEQUENCE"; "SEQUENCE"; "SEQUENCE"] (Of "SEQUENCE") [El false 0 "RANAP_MBMSCNDe_RegistrationResponse" ["mbmscnDe_RegistrationResponse_ies"] "RANAP_MBMSCNDe-RegistrationResponse:mbmscnDe_RegistrationResponse_ies_2" "A_SEQUENCE_OF"] (SpSeq "RANAP_MBMSCNDe_RegistrationResponse" ("RANAP_MBMSCNDe_RegistrationResponse", "_asn_ctx") [] 0 0);
  (* src/ranap/RANAP_MBMSCountingInformation.c:143-167 *)
  De "RANAP_MBMSCountingInformation" ["NativeEnumerated"; "NativeEnumerated"; "NativeEnumerated"; "NativeEnumerated"] (Of "NativeEnumerated") [] (SpInt false);
  (* src/ranap/RANAP_MBMSHCIndicator.c:143-167 *)
  De "RANAP_MBMSHCIndicator" ["NativeEnumerated"; "NativeEnumerated"; "NativeEnumerated"; "NativeEnumerated"] (Of "NativeEnumerated") [] (SpInt false);
  (* src/ranap/RANAP_MBMSIPMulticastAddressandAPNRequest.c:34-59 *)
  De "RANAP_MBMSIPMulticastAddressandAPNRequest" ["SEQUENCE_OF"; "SEQUENCE_OF"; "SEQUENCE_OF"; "SEQUENCE_OF"] (Of "SEQUENCE_OF") [El true 0 "" [] "RANAP_TMGI" ""] (SpList "RANAP_MBMSIPMulticastAddressandAPNRequest" ("RANAP_MBMSIPMulticastAddressandAPNRequest", "_asn_ctx"));
  (* src/ranap/RANAP_MBMSIPMulticastAddressandAPNlist.c:68-93 *)
  De "RANAP_MBMSIPMulticastAddressandAPNlist" ["SEQUENCE"; "SEQUENCE"; "SEQUENCE"; "SEQUENCE"] (Of "SEQUENCE") [El false 0 "RANAP_MBMSIPMulticastAddressandAPNlist" ["tMGI"] "RANAP_TMGI" "";
    El false 0 "RANAP_MBMSIPMulticastAddressandAPNlist" ["iPMulticastAddress"] "RANAP_IPMulticastAddress" "";
    El false 0 "RANAP_MBMSIPMulticastAddressandAPNlist" ["aPN"] "RANAP_APN" "";
    El true 1 "RANAP_MBMSIPMulticastAddressandAPNlist" ["iE_Extensions"] "RANAP_IE_Extensions" ""] (SpSeq "RANAP_MBMSIPMulticastAddressandAPNlist" ("RANAP_MBMSIPMulticastAddressandAPNlist", "_asn_ctx") [3] 1 0);
  (* src/ranap/RANAP_MBMSLinkingInformation.c:141-165 *)
  De "RANAP_MBMSLinkingInformation" ["NativeEnumerated"; "NativeEnumerated"; "NativeEnumerated"; "NativeEnumerated"] (Of "NativeEnumerated") [] (SpInt false);
  (* src/ranap/RANAP_MBMSRABEstablishmentIndication.c:66-92 *)
  De "RANAP_MBMSRABEstablishmentIndication:mbmsrabEstablishmentIndication_ies_2" ["SEQUENCE_OF"; "SEQUENCE_OF"; "SEQUENCE_OF"; "SEQUENCE_OF"] (Of "SEQUENCE_OF") [El true 0 "" [] "RANAP_IE" ""] (SpList "RANAP_MBMSRABEstablishmentIndication__mbmsrabEstablishmentIndication_ies" ("RANAP_MBMSRABEstablishmentIndication__mbmsrabEstablishmentIndication_ies", "_asn_ctx"));
  (* src/ranap/RANAP_MBMSRABEstablishmentIndication.c:120-145 *)
  De "RANAP_MBMSRABEstablishmentIndication" ["SEQUENCE"; "SEQUENCE"; "SEQUENCE"; "SEQUENCE"] (Of "SEQUENCE") [El false 0 "RANAP_MBMSRABEstablishmentIndication" ["mbmsrabEstablishmentIndication_ies"] "RANAP_MBMSRABEstablishmentIndication:mbmsrabEstablishmentIndication_ies_2" "A_SEQUENCE_OF"] (SpSeq "RANAP_MBMSRABEstablishmentIndication" ("RANAP_MBMSRABEstablishmentIndication", "_asn_ctx") [] 0 0);
  (* src/ranap/RANAP_MBMSRABRelease.c:66-92 *)
  De "RANAP_MBMSRABRelease:mbmsrabRelease_ies_2" ["SEQUENCE_OF"; "SEQUENCE_OF"; "SEQUENCE_OF"; "SEQUENCE_OF"] (Of "SEQUENCE_OF") [El true 0 "" [] "RANAP_IE" ""] (SpList "RANAP_MBMSRABRelease__mbmsrabRelease_ies" ("RANAP_MBMSRABRelease__mbmsrabRelease_ies", "_asn_ctx"));
  (* src/ranap/RANAP_MBMSRABRelease.c:120-145 *)
  De "RANAP_MBMSRABRelease" ["SEQUENCE"; "SEQUENCE"; "SEQUENCE"; "SEQUENCE"] (Of "SEQUENCE") [El false 0 "RANAP_MBMSRABRelease" ["mbmsrabRelease_ies"] "RANAP_MBMSRABRelease:mbmsrabRelease_ies_2" "A_SEQUENCE_OF"] (SpSeq "RANAP_MBMSRABRelease" ("RANAP_MBMSRABRelease", "_asn_ctx") [] 0 0);
  (* src/ranap/RANAP_MBMSRABReleaseFailure.c:66-92 *)
  De "RANAP_MBMSRABReleaseFailure:mbmsrabReleaseFailure_ies_2" ["SEQUENCE_OF"; "SEQUENCE_OF"; "SEQUENCE_OF"; "SEQUENCE_OF"] (Of "SEQUENCE_OF") [El true 0 "" [] "RANAP_IE" ""] (SpList "RANAP_MBMSRABReleaseFailure__mbmsrabReleaseFailure_ies" ("RANAP_MBMSRABReleaseFailure__mbmsrabReleaseFailure_ies", "_asn_ctx"));
  (* src/ranap/RANAP_MBMSRABReleaseFailure.c:120-145 *)
  De "RANAP_MBMSRABReleaseFailure" ["SEQUENCE"; "SEQUENCE"; "SEQUENCE"; "SEQUENCE"] (Of "SEQUENCE") [El false 0 "RANAP_MBMSRABReleaseFailure" ["mbmsrabReleaseFailure_ies"] "RANAP_MBMSRABReleaseFailure:mbmsrabReleaseFailure_ies_2" "A_SEQUENCE_OF"] (SpSeq "RANAP_MBMSRABReleaseFailure" ("RANAP_MBMSRABReleaseFailure", "_asn_ctx") [] 0 0);
  (* src/ranap/RANAP_MBMSRABReleaseRequest.c:66-92 *)
  De "RANAP_MBMSRABReleaseRequest:mbmsrabReleaseRequest_ies_2" ["SEQUENCE_OF"; "SEQUENCE_OF"; "SEQUENCE_OF"; "SEQUENCE_OF"] (Of "SEQUENCE_OF") [El true 0 "" [] "RANAP_IE" ""] (SpList "RANAP_MBMSRABReleaseRequest__mbmsrabReleaseRequest_ies" ("RANAP_MBMSRABReleaseRequest__mbmsrabReleaseRequest_ies", "_asn_ctx"));
  (* src/ranap/RANAP_MBMSRABReleaseRequest.c:120-145 *)
  De "RANAP_MBMSRABReleaseRequest" ["SEQUENCE"; "SEQUENCE"; "SEQUENCE"; "SEQUENCE"] (Of "SEQUENCE") [El false 0 "RANAP_MBMSRABReleaseRequest" ["mbmsrabReleaseRequest_ies"] "RANAP_MBMSRABReleaseRequest:mbmsrabReleaseRequest_ies_2" "A_SEQUENCE_OF"] (SpSeq "RANAP_MBMSRABReleaseRequest" ("RANAP_MBMSRABReleaseRequest", "_asn_ctx") [] 0 0);
  (* src/ranap/RANAP_MBMSRegistrationFailure.c:66-92 *)
  De "RANAP_MBMSRegistrationFailure:mbmsRegistrationFailure_ies_2" ["SEQUENCE_OF"; "SEQUENCE_OF"; "SEQUENCE_OF"; "SEQUENCE_OF"] (Of "SEQUENCE_OF") [El true 0 "" [] "RANAP_IE" ""] (SpList "RANAP_MBMSRegistrationFailure__mbmsRegistrationFailure_ies" ("RANAP_MBMSRegistrationFailure__mbmsRegistrationFailure_ies", "_asn_ctx"));
  (* src/ranap/RANAP_MBMSRegistrationFailure.c:120-145 *)
  De "RANAP_MBMSRegistrationFailure" ["SEQUENCE"; "SEQUENCE"; "SEQUENCE"; "SEQUENCE"] (Of "SEQUENCE") [El false 0 "RANAP_MBMSRegistrationFailure" ["mbmsRegistrationFailure_ies"] "RANAP_MBMSRegistrationFailure:mbmsRegistrationFailure_ies_2" "A_SEQUENCE_OF"] (SpSeq "RANAP_MBMSRegistrationFailure" ("RANAP_MBMSRegistrationFailure", "_asn_ctx") [] 0 0);
  (* src/ranap/RANAP_MBMSRegistrationRequest.c:66-92 *)
  De "RANAP_MBMSRegistrationRequest:mbmsRegistrationRequest_ies_2" ["SEQUENCE_OF"; "SEQUENCE_OF"; "SEQUENCE_OF"; "SEQUENCE_OF"] (Of "SEQUENCE_OF") [El true 0 "" [] "RANAP_IE" ""] (SpList "RANAP_MBMSRegistrationRequest__mbmsRegistrationRequest_ies" ("RANAP_MBMSRegistrationRequest__mbmsRegistrationRequest_ies", "_asn_ctx"));
  (* src/ranap/RANAP_MBMSRegistrationRequest.c:120-145 *)
  De "RANAP_MBMSRegistrationRequest" ["SEQUENCE"; "SEQUENCE"; "SEQUENCE"; "SEQUENCE"] (Of "SEQUENCE") [El false 0 "RANAP_MBMSRegistrationRequest" ["mbmsRegistrationRequest_ies"] "RANAP_MBMSRegistrationRequest:mbmsRegistrationRequest_ies_2" "A_SEQUENCE_OF"] (SpSeq "RANAP_MBMSRegistrationRequest" ("RANAP_MBMSRegistrationRequest", "_asn_ctx") [] 0 0);
  (* src/ranap/RANAP_MBMSRegistrationRequestType.c:143-167 *)
  De "RANAP_MBMSRegistrationRequestType" ["NativeEnumerated"; "NativeEnumerated"; "NativeEnumerated"; "NativeEnumerated"] (Of "NativeEnumerated") [] (SpInt false);
  (* src/ranap/RANAP_MBMSRegistrationResponse.c:66-92 *)
  De "RANAP_MBMSRegistrationResponse:mbmsRegistrationResponse_ies_2" ["SEQUENCE_OF"; "SEQUENCE_OF"; "SEQUENCE_OF"; "SEQUENCE_OF"] (Of "SEQUENCE_OF") [El true 0 "" [] "RANAP_IE" ""] (SpList "RANAP_MBMSRegistrationResponse__mbmsRegistrationResponse_ies" ("RANAP_MBMSRegistrationResponse__mbmsRegistrationResponse_ies", "_asn_ctx"));
  (* src/ranap/RANAP_MBMSRegistrationResponse.c:120-145 *)
  De "RANAP_MBMSRegistrationResponse" ["SEQUENCE"; "SEQUENCE"; "SEQUENCE"; "SEQUENCE"] (Of "SEQUENCE") [El false 0 "RANAP_MBMSRegistrationResponse" ["mbmsRegistrationResponse_ies"] "RANAP_MBMSRegistrationResponse:mbmsRegistrationResponse_ies_2" "A_SEQUENCE_OF"] (SpSeq "RANAP_MBMSRegistrationResponse" ("RANAP_MBMSRegistrationResponse", "_asn_ctx") [] 0 0);
  (* src/ranap/RANAP_MBMSServiceArea.c:119-143 *)
  De "RANAP_MBMSServiceArea" ["OCTET_STRING"; "OCTET_STRING"; "OCTET_STRING"; "OCTET_STRING"] (Of "OCTET_STRING") [] (SpNone);
  (* src/ranap/RANAP_MBMSSessionDuration.c:142-166 *)
  De "RANAP_MBMSSessionDuration" ["OCTET_STRING"; "OCTET_STRING"; "OCTET_STRING"; "OCTET_STRING"] (Cast "OCTET_STRING_t") [] (SpNone);
  (* src/ranap/RANAP_MBMSSessionIdentity.c:142-166 *)
  De "RANAP_MBMSSessionIdentity" ["OCTET_STRING"; "OCTET_STRING"; "OCTET_STRING"; "OCTET_STRING"] (Cast "OCTET_STRING_t") [] (SpNone);
  (* src/ranap/RANAP_MBMSSessionRepetitionNumber.c:142-166 *)
  De "RANAP_MBMSSessionRepetitionNumber" ["OCTET_STRING"; "OCTET_STRING"; "OCTET_STRING"; "OCTET_STRING"] (Cast "OCTET_STRING_t") [] (SpNone);
  (* src/ranap/RANAP_MBMSSessionStart.c:66-92 *)
  De "RANAP_MBMSSessionStart:mbmsSessionStart_ies_2" ["SEQUENCE_OF"; "SEQUENCE_OF"; "SEQUENCE_OF"; "SEQUENCE_OF"] (Of "SEQUENCE_OF") [El true 0 "" [] "RANAP_IE" ""] (SpList "RANAP_MBMSSessionStart__mbmsSessionStart_ies" ("RANAP_MBMSSessionStart__mbmsSessionStart_ies", "_asn_ctx"));
  (* src/ranap/RANAP_MBMSSessionStart.c:120-145 *)
  De "RANAP_MBMSSessionStart" ["SEQUENCE"; "SEQUENCE"; "SEQUENCE"; "SEQUENCE"] (Of "SEQUENCE") [El false 0 "RANAP_MBMSSessionStart" ["mbmsSessionStart_ies"] "RANAP_MBMSSessionStart:mbmsSessionStart_ies_2" "A_SEQUENCE_OF"] (SpSeq "RANAP_MBMSSessionStart" ("RANAP_MBMSSessionStart", "_asn_ctx") [] 0 0);
  (* src/ranap/RANAP_MBMSSessionStartFailure.c:66-92 *)
  De "RANAP_MBMSSessionStartFailure:mbmsSessionStartFailure_ies_2" ["SEQUENCE_OF"; "SEQUENCE_OF"; "SEQUENCE_OF"; "SEQUENCE_OF"] (Of "SEQUENCE_OF") [El true 0 "" [] "RANAP_IE" ""] (SpList "RANAP_MBMSSessionStartFailure__mbmsSessionStartFailure_ies" ("RANAP_MBMSSessionStartFailure__mbmsSessionStartFailure_ies", "_asn_ctx"));
  (* src/ranap/RANAP_MBMSSessionStartFailure.c:120-145 *)
  De "RANAP_MBMSSessionStartFailure" ["SEQUENCE"; "SEQUENCE"; "SEQUENCE"; "SEQUENCE"] (Of "SEQUENCE") [El false 0 "RANAP_MBMSSessionStartFailure" ["mbmsSessionStartFailure_ies"] "RANAP_MBMSSessionStartFailure:mbmsSessionStartFailure_ies_2" "A_SEQUENCE_OF"] (SpSeq "RANAP_MBMSSessionStartFailure" ("RANAP_MBMSSessionStartFailure", "_asn_ctx") [] 0 0);
  (* src/ranap/RANAP_MBMSSessionStartResponse.c:66-92 *)
  De "RANAP_MBMSSessionStartResponse:mbmsSessionStartResponse_ies_2" ["SEQUENCE_OF"; "SEQUENCE_OF"; "SEQUENCE_OF"; "SEQUENCE_OF"] (Of "SEQUENCE_OF") [El true 0 "" [] "RANAP_IE" ""] (SpList "RANAP_MBMSSessionStartResponse__mbmsSessionStartResponse_ies" ("RANAP_MBMSSessionStartResponse__mbmsSessionStartResponse_ies", "_asn_ctx"));
  (* src/ranap/RANAP_MBMSSessionStartResponse.c:120-145 *)
  De "RANAP_MBMSSessionStartResponse" ["SEQUENCE"; "SEQUENCE"; "SEQUENCE"; "SEQUENCE"] (Of "SEQUENCE") [El false 0 "RANAP_MBMSSessionStartResponse" ["mbmsSessionStartResponse_ies"] "RANAP_MBMSSessionStartResponse:mbmsSessionStartResponse_ies_2" "A_SEQUENCE_OF"] (SpSeq "RANAP_MBMSSessionStartResponse" ("RANAP_MBMSSessionStartResponse", "_asn_ctx") [] 0 0);
  (* src/ranap/RANAP_MBMSSessionStop.c:66-92 *)
  De "RANAP_MBMSSessionStop:mbmsSessionStop_ies_2" ["SEQUENCE_OF"; "SEQUENCE_OF"; "SEQUENCE_OF"; "SEQUENCE_OF"] (Of "SEQUENCE_OF") [El true 0 "" [] "RANAP_IE" ""] (SpList "RANAP_MBMSSessionStop__mbmsSessionStop_ies" ("RANAP_MBMSSessionStop__mbmsSessionStop_ies", "_asn_ctx"));
  (* src/ranap/RANAP_MBMSSessionStop.c:120-145 *)
  De "RANAP_MBMSSessionStop" ["SEQUENCE"; "SEQUENCE"; "SEQUENCE"; "SEQUENCE"] (Of "SEQUENCE") [El false 0 "RANAP_MBMSSessionStop" ["mbmsSessionStop_ies"] "RANAP_MBMSSessionStop:mbmsSessionStop_ies_2" "A_SEQUENCE_OF"] (SpSeq "RANAP_MBMSSessionStop" ("RANAP_MBMSSessionStop", "_asn_ctx") [] 0 0);
  (* src/ranap/RANAP_MBMSSessionStopResponse.c:66-92 *)
  De "RANAP_MBMSSessionStopResponse:mbmsSessionStopResponse_ies_2" ["SEQUENCE_OF"; "SEQUENCE_OF"; "SEQUENCE_OF"; "SEQUENCE_OF"] (Of "SEQUENCE_OF") [El true 0 "" [] "RANAP_IE" ""] (SpList "RANAP_MBMSSessionStopResponse__mbmsSessionStopResponse_ies" ("RANAP_MBMSSessionStopResponse__mbmsSessionStopResponse_ies", "_asn_ctx"));
  (* src/ranap/RANAP_MBMSSessionStopResponse.c:120-145 *)
  De "RANAP_MBMSSessionStopResponse" ["SEQUENCE"; "SEQUENCE"; "SEQUENCE"; "SEQUENCE"] (Of "SEQUENCE") [El false 0 "RANAP_MBMSSessionStopResponse" ["mbmsSessionStopResponse_ies"] "RANAP_MBMSSessionStopResponse:mbmsSessionStopResponse_ies_2" "A_SEQUENCE_OF"] (SpSeq "RANAP_MBMSSessionStopResponse" ("RANAP_MBMSSessionStopResponse", "_asn_ctx") [] 0 0);
  (* src/ranap/RANAP_MBMSSessionUpdate.c:66-92 *)
  De "RANAP_MBMSSessionUpdate:mbmsSessionUpdate_ies_2" ["SEQUENCE_OF"; "SEQUENCE_OF"; "SEQUENCE_OF"; "SEQUENCE_OF"] (Of "SEQUENCE_OF") [El true 0 "" [] "RANAP_IE" ""] (SpList "RANAP_MBMSSessionUpdate__mbmsSessionUpdate_ies" ("RANAP_MBMSSessionUpdate__mbmsSessionUpdate_ies", "_asn_ctx"));
  (* src/ranap/RANAP_MBMSSessionUpdate.c:120-145 *)
  De "RANAP_MBMSSessionUpdate" ["SEQUENCE"; "SEQUENCE"; "SEQUENCE"; "SEQUENCE"] (Of "SEQUENCE") [El false 0 "RANAP_MBMSSessionUpdate" ["mbmsSessionUpdate_ies"] "RANAP_MBMSSessionUpdate:mbmsSessionUpdate_ies_2" "A_SEQUENCE_OF"] (SpSeq "RANAP_MBMSSessionUpdate" ("RANAP_MBMSSessionUpdate", "_asn_ctx") [] 0 0);
  (* src/ranap/RANAP_MBMSSessionUpdateFailure.c:66-92 *)
  De "RANAP_MBMSSessionUpdateFailure:mbmsSessionUpdateFailure_ies_2" ["SEQUENCE_OF"; "SEQUENCE_OF"; "SEQUENCE_OF"; "SEQUENCE_OF"] (Of "SEQUENCE_OF") [El true 0 "" [] "RANAP_IE" ""] (SpList "RANAP_MBMSSessionUpdateFailure__mbmsSessionUpdateFailure_ies" ("RANAP_MBMSSessionUpdateFailure__mbmsSessionUpdateFailure_ies", "_asn_ctx"));
  (* src/ranap/RANAP_MBMSSessionUpdateFailure.c:120-145 *)
  De "RANAP_MBMSSessionUpdateFailure" ["SEQUENCE"; "SEQUENCE"; "SEQUENCE"; "SEQUENCE"] (Of "SEQUENCE") [El false 0 "RANAP_MBMSSessionUpdateFailure" ["mbmsSessionUpdateFailure_ies"] "RANAP_MBMSSessionUpdateFailure:mbmsSessionUpdateFailure_ies_2" "A_SEQUENCE_OF"] (SpSeq "RANAP_MBMSSessionUpdateFailure" ("RANAP_MBMSSessionUpdateFailure", "_asn_ctx") [] 0 0);
  (* src/ranap/RANAP_MBMSSessionUpdateResponse.c:66-92 *)
  De "RANAP_MBMSSessionUpdateResponse:mbmsSessionUpdateResponse_ies_2" ["SEQUENCE_OF"; "SEQUENCE_OF"; "SEQUENCE_OF"; "SEQUENCE_OF"] (Of "SEQUENCE_OF") [El true 0 "" [] "RANAP_IE" ""] (SpList "RANAP_MBMSSessionUpdateResponse__mbmsSessionUpdateResponse_ies" ("RANAP_MBMSSessionUpdateResponse__mbmsSessionUpdateResponse_ies", "_asn_ctx"));
  (* src/ranap/RANAP_MBMSSessionUpdateResponse.c:120-145 *)
  De "RANAP_MBMSSessionUpdateResponse" ["SEQUENCE"; "SEQUENCE"; "SEQUENCE"; "SEQUENCE"] (Of "SEQUENCE") [El false 0 "RANAP_MBMSSessionUpdateResponse" ["mbmsSessionUpdateResponse_ies"] "RANAP_MBMSSessionUpdateResponse:mbmsSessionUpdateResponse_ies_2" "A_SEQUENCE_OF"] (SpSeq "RANAP_MBMSSessionUpdateResponse" ("RANAP_MBMSSessionUpdateResponse", "_asn_ctx") [] 0 0);
  (* src/ranap/RANAP_MBMSSynchronisationInformation.c:68-93 *)
  De "RANAP_MBMSSynchronisationInformation" ["SEQUENCE"; "SEQUENCE"; "SEQUENCE"; "SEQUENCE"] (Of "SEQUENCE") [El false 0 "RANAP_MBMSSynchronisationInformation" ["mBMSHCIndicator"] "RANAP_MBMSHCIndicator" "";
    El false 0 "RANAP_MBMSSynchronisationInformation" ["iPMulticastAddress"] "RANAP_IPMulticastAddress" "";
    El false 0 "RANAP_MBMSSynchronisationInformation" ["gTPDLTEID"] "RANAP_GTP_TEI" "";
    El true 1 "RANAP_MBMSSynchronisationInformation" ["iE_Extensions"] "RANAP_ProtocolExtensionContainer" ""] (SpSeq "RANAP_MBMSSynchronisationInformation" ("RANAP_MBMSSynchronisationInformation", "_asn_ctx") [3] 1 0);
  (* src/ranap/RANAP_MBMSUELinkingRequest.c:66-92 *)
  De "RANAP_MBMSUELinkingRequest:mbmsueLinkingRequest_ies_2" ["SEQUENCE_OF"; "SEQUENCE_OF"; "SEQUENCE_OF"; "SEQUENCE_OF"] (Of "SEQUENCE_OF") [El true 0 "" [] "RANAP_IE" ""] (SpList "RANAP_MBMSUELinkingRequest__mbmsueLinkingRequest_ies" ("RANAP_MBMSUELinkingRequest__mbmsueLinkingRequest_ies", "_asn_ctx"));
  (* src/ranap/RANAP_MBMSUELinkingRequest.c:120-145 *)
  De "RANAP_MBMSUELinkingRequest" ["SEQUENCE"; "SEQUENCE"; "SEQUENCE"; "SEQUENCE"] (Of "SEQUENCE") [El false 0 "RANAP_MBMSUELinkingRequest" ["mbmsueLinkingRequest_ies"] "RANAP_MBMSUELinkingRequest:mbmsueLinkingRequest_ies_2" "A_SEQUENCE_OF"] (SpSeq "RANAP_MBMSUELinkingRequest" ("RANAP_MBMSUELinkingRequest", "_asn_ctx") [] 0 0);
  (* src/ranap/RANAP_MBMSUELinkingResponse.c:66-92 *)
  De "RANAP_MBMSUELinkingResponse:mbmsueLinkingResponse_ies_2" ["SEQUENCE_OF"; "SEQUENCE_OF"; "SEQUENCE_OF"; "SEQUENCE_OF"] (Of "SEQUENCE_OF") [El true 0 "" [] "RANAP_IE" ""] (SpList "RANAP_MBMSUELinkingResponse__mbmsueLinkingResponse_ies" ("RANAP_MBMSUELinkingResponse__mbmsueLinkingResponse_ies", "_asn_ctx"));
  (* src/ranap/RANAP_MBMSUELinkingResponse.c:120-145 *)
  De "RANAP_MBMSUELinkingResponse" ["SEQUENCE"; "SEQUENCE"; "SEQUENCE"; "SEQUENCE"] (Of "SEQUENCE") [El false 0 "RANAP_MBMSUELinkingResponse" ["mbmsueLinkingResponse_ies"] "RANAP_MBMSUELinkingResponse:mbmsueLinkingResponse_ies_2" "A_SEQUENCE_OF"] (SpSeq "RANAP_MBMSUELinkingResponse" ("RANAP_MBMSUELinkingResponse", "_asn_ctx") [] 0 0);
  (* src/ranap/RANAP_MDT-Activation.c:145-169 *)
  De "RANAP_MDT_Activation" ["NativeEnumerated"; "NativeEnumerated"; "NativeEnumerated"; "NativeEnumerated"] (Of "NativeEnumerated") [] (SpInt false);
  (* src/ranap/RANAP_MDT-Configuration.c:68-93 *)
  De "RANAP_MDT_Configuration" ["SEQUENCE"; "SEQUENCE"; "SEQUENCE"; "SEQUENCE"] (Of "SEQUENCE") [El false 0 "RANAP_MDT_Configuration" ["mdtActivation"] "RANAP_MDT_Activation" "";
    El false 0 "RANAP_MDT_Configuration" ["mdtAreaScope"] "RANAP_MDTAreaScope" "";
    El false 0 "RANAP_MDT_Configuration" ["mdtMode"] "RANAP_MDTMode" "";
    El true 1 "RANAP_MDT_Configuration" ["iE_Extensions"] "RANAP_IE_Extensions" ""] (SpSeq "RANAP_MDT_Configuration" ("RANAP_MDT_Configuration", "_asn_ctx") [3] 1 0);
  (* src/ranap/RANAP_MDT-PLMN-List.c:34-59 *)
  De "RANAP_MDT_PLMN_List" ["SEQUENCE_OF"; "SEQUENCE_OF"; "SEQUENCE_OF"; "SEQUENCE_OF"] (Of "SEQUENCE_OF") [El true 0 "" [] "RANAP_PLMNidentity" ""] (SpList "RANAP_MDT_PLMN_List" ("RANAP_MDT_PLMN_List", "_asn_ctx"));
  (* src/ranap/RANAP_MDT-Report-Parameters.c:46-71 *)
  De "RANAP_MDT_Report_Parameters" ["SEQUENCE"; "SEQUENCE"; "SEQUENCE"; "SEQUENCE"] (Of "SEQUENCE") [El false 0 "RANAP_MDT_Report_Parameters" ["reportInterval"] "RANAP_ReportInterval" "";
    El false 0 "RANAP_MDT_Report_Parameters" ["reportAmount"] "RANAP_ReportAmount" ""] (SpSeq "RANAP_MDT_Report_Parameters" ("RANAP_MDT_Report_Parameters", "_asn_ctx") [] 0 0);
  (* src/ranap/RANAP_MDTAreaScope.c:69-92 *)
  De "RANAP_MDTAreaScope" ["CHOICE"; "CHOICE"; "CHOICE"; "CHOICE"] (Of "CHOICE") [El false 0 "RANAP_MDTAreaScope" ["choice"; "cellbased"] "RANAP_CellBased" "";
    El false 0 "RANAP_MDTAreaScope" ["choice"; "labased"] "RANAP_LABased" "";
    El false 0 "RANAP_MDTAreaScope" ["choice"; "rabased"] "RANAP_RABased" "";
    El false 0 "RANAP_MDTAreaScope" ["choice"; "plmn_area_based"] "NULL" ""] (SpChoice "RANAP_MDTAreaScope" ("RANAP_MDTAreaScope", "_asn_ctx") ("RANAP_MDTAreaScope", "present") ("RANAP_MDTAreaScope", "present"));
  (* src/ranap/RANAP_MDTMode.c:49-72 *)
  De "RANAP_MDTMode" ["CHOICE"; "CHOICE"; "CHOICE"; "CHOICE"] (Of "CHOICE") [El false 0 "RANAP_MDTMode" ["choice"; "immediateMDT"] "RANAP_ImmediateMDT" "";
    El false 0 "RANAP_MDTMode" ["choice"; "loggedMDT"] "RANAP_LoggedMDT" ""] (SpChoice "RANAP_MDTMode" ("RANAP_MDTMode", "_asn_ctx") ("RANAP_MDTMode", "present") ("RANAP_MDTMode", "present"));
  (* src/ranap/RANAP_MSISDN.c:142-166 *)
  De "RANAP_MSISDN" ["OCTET_STRING"; "OCTET_STRING"; "OCTET_STRING"; "OCTET_STRING"] (Cast "OCTET_STRING_t") [] (SpNone);
  (* src/ranap/RANAP_Management-Based-MDT-Allowed.c:141-165 *)
  De "RANAP_Management_Based_MDT_Allowed" ["NativeEnumerated"; "NativeEnumerated"; "NativeEnumerated"; "NativeEnumerated"] (Of "NativeEnumerated") [] (SpInt false);
  (* src/ranap/RANAP_MaxBitrate.c:141-165 *)
  De "RANAP_MaxBitrate" ["NativeInteger"; "NativeInteger"; "NativeInteger"; "NativeInteger"] (Cast "long") [] (SpNone);
  (* src/ranap/RANAP_MaxSDU-Size.c:141-165 *)
  De "RANAP_MaxSDU_Size" ["NativeInteger"; "NativeInteger"; "NativeInteger"; "NativeInteger"] (Cast "long") [] (SpNone);
  (* src/ranap/RANAP_MeasBand.c:149-173 *)
  De "RANAP_MeasBand" ["NativeEnumerated"; "NativeEnumerated"; "NativeEnumerated"; "NativeEnumerated"] (Of "NativeEnumerated") [] (SpInt false);
  (* src/ranap/RANAP_MeasurementQuantity.c:145-169 *)
  De "RANAP_MeasurementQuantity" ["NativeEnumerated"; "NativeEnumerated"; "NativeEnumerated"; "NativeEnumerated"] (Of "NativeEnumerated") [] (SpInt false);
  (* src/ranap/RANAP_MeasurementsToActivate.c:147-171 *)
  De "RANAP_MeasurementsToActivate" ["BIT_STRING"; "BIT_STRING"; "BIT_STRING"; "BIT_STRING"] (Cast "BIT_STRING_t") [] (SpNone);
  (* src/ranap/RANAP_MessageStructure-Value.c:58-83 *)
  De "RANAP_MessageStructure_Value" ["SEQUENCE"; "SEQUENCE"; "SEQUENCE"; "SEQUENCE"] (Of "SEQUENCE") [El false 0 "RANAP_MessageStructure_Value" ["iE_ID"] "RANAP_ProtocolIE_ID" "";
    El true 2 "RANAP_MessageStructure_Value" ["repetitionNumber"] "RANAP_RepetitionNumber1" "";
    El true 1 "RANAP_MessageStructure_Value" ["iE_Extensions"] "RANAP_IE_Extensions" ""] (SpSeq "RANAP_MessageStructure_Value" ("RANAP_MessageStructure_Value", "_asn_ctx") [1; 2] 2 0);
  (* src/ranap/RANAP_MessageStructure.c:34-59 *)
  De "RANAP_MessageStructure" ["SEQUENCE_OF"; "SEQUENCE_OF"; "SEQUENCE_OF"; "SEQUENCE_OF"] (Of "SEQUENCE_OF") [El true 0 "" [] "RANAP_MessageStructure_Value" ""] (SpList "RANAP_MessageStructure" ("RANAP_MessageStructure", "_asn_ctx"));
  (* src/ranap/RANAP_NAS-PDU.c:119-143 *)
  De "RANAP_NAS_PDU" ["OCTET_STRING"; "OCTET_STRING"; "OCTET_STRING"; "OCTET_STRING"] (Of "OCTET_STRING") [] (SpNone);
  (* src/ranap/RANAP_NAS-SequenceNumber.c:147-171 *)
  De "RANAP_NAS_SequenceNumber" ["BIT_STRING"; "BIT_STRING"; "BIT_STRING"; "BIT_STRING"] (Cast "BIT_STRING_t") [] (SpNone);
  (* src/ranap/RANAP_NAS-SynchronisationIndicator.c:147-171 *)
  De "RANAP_NAS_SynchronisationIndicator" ["BIT_STRING"; "BIT_STRING"; "BIT_STRING"; "BIT_STRING"] (Cast "BIT_STRING_t") [] (SpNone);
  (* src/ranap/RANAP_NRTLoadInformationValue.c:141-165 *)
  De "RANAP_NRTLoadInformationValue" ["NativeInteger"; "NativeInteger"; "NativeInteger"; "NativeInteger"] (Cast "long") [] (SpNone);
  (* src/ranap/RANAP_NewBSS-To-OldBSS-Information.c:119-143 *)
  De "RANAP_NewBSS_To_OldBSS_Information" ["OCTET_STRING"; "OCTET_STRING"; "OCTET_STRING"; "OCTET_STRING"] (Of "OCTET_STRING") [] (SpNone);
  (* src/ranap/RANAP_NewRAListofIdleModeUEs.c:34-59 *)
  De "RANAP_NewRAListofIdleModeUEs" ["SEQUENCE_OF"; "SEQUENCE_OF"; "SEQUENCE_OF"; "SEQUENCE_OF"] (Of "SEQUENCE_OF") [El true 0 "" [] "RANAP_RAC" ""] (SpList "RANAP_NewRAListofIdleModeUEs" ("RANAP_NewRAListofIdleModeUEs", "_asn_ctx"));
  (* src/ranap/RANAP_NonSearchingIndication.c:141-165 *)
  De "RANAP_NonSearchingIndication" ["NativeEnumerated"; "NativeEnumerated"; "NativeEnumerated"; "NativeEnumerated"] (Of "NativeEnumerated") [] (SpInt false);
  (* src/ranap/RANAP_NotEmptyRAListofIdleModeUEs.c:48-73 *)
  De "RANAP_NotEmptyRAListofIdleModeUEs" ["SEQUENCE"; "SEQUENCE"; "SEQUENCE"; "SEQUENCE"] (Of "SEQUENCE") [El false 0 "RANAP_NotEmptyRAListofIdleModeUEs" ["rAofIdleModeUEs"] "RANAP_RAofIdleModeUEs" "";
    El true 1 "RANAP_NotEmptyRAListofIdleModeUEs" ["iE_Extensions"] "RANAP_IE_Extensions" ""] (SpSeq "RANAP_NotEmptyRAListofIdleModeUEs" ("RANAP_NotEmptyRAListofIdleModeUEs", "_asn_ctx") [1] 1 0);
  (* src/ranap/RANAP_NumberOfIuInstances.c:141-165 *)
  De "RANAP_NumberOfIuInstances" ["NativeInteger"; "NativeInteger"; "NativeInteger"; "NativeInteger"] (Cast "long") [] (SpNone);
  (* src/ranap/RANAP_NumberOfSteps.c:141-165 *)
  De "RANAP_NumberOfSteps" ["NativeInteger"; "NativeInteger"; "NativeInteger"; "NativeInteger"] (Cast "long") [] (SpNone);
  (* src/ranap/RANAP_OMC-ID.c:142-166 *)
  De "RANAP_OMC_ID" ["OCTET_STRING"; "OCTET_STRING"; "OCTET_STRING"; "OCTET_STRING"] (Cast "OCTET_STRING_t") [] (SpNone);
  (* src/ranap/RANAP_Offload-RAB-Parameters-APN.c:142-166 *)
  De "RANAP_Offload_RAB_Parameters_APN" ["OCTET_STRING"; "OCTET_STRING"; "OCTET_STRING"; "OCTET_STRING"] (Cast "OCTET_STRING_t") [] (SpNone);
  (* src/ranap/RANAP_Offload-RAB-Parameters-ChargingCharacteristics.c:142-166 *)
  De "RANAP_Offload_RAB_Parameters_ChargingCharacteristics" ["OCTET_STRING"; "OCTET_STRING"; "OCTET_STRING"; "OCTET_STRING"] (Cast "OCTET_STRING_t") [] (SpNone);
  (* src/ranap/RANAP_Offload-RAB-Parameters.c:58-83 *)
  De "RANAP_Offload_RAB_Parameters" ["SEQUENCE"; "SEQUENCE"; "SEQUENCE"; "SEQUENCE"] (Of "SEQUENCE") [El false 0 "RANAP_Offload_RAB_Parameters" ["accessPointName"] "RANAP_Offload_RAB_Parameters_APN" "";
    El false 0 "RANAP_Offload_RAB_Parameters" ["chargingCharacteristics"] "RANAP_Offload_RAB_Parameters_ChargingCharacteristics" "";
    El true 1 "RANAP_Offload_RAB_Parameters" ["iE_Extensions"] "RANAP_IE_Extensions" ""] (SpSeq "RANAP_Offload_RAB_Parameters" ("RANAP_Offload_RAB_Parameters", "_asn_ctx") [2] 1 0);
  (* src/ranap/RANAP_OldBSS-ToNewBSS-Information.c:119-143 *)
  De "RANAP_OldBSS_ToNewBSS_Information" ["OCTET_STRING"; "OCTET_STRING"; "OCTET_STRING"; "OCTET_STRING"] (Of "OCTET_STRING") [] (SpNone);
  (* src/ranap/RANAP_Out-Of-UTRAN.c:141-165 *)
  De "RANAP_Out_Of_UTRAN" ["NativeEnumerated"; "NativeEnumerated"; "NativeEnumerated"; "NativeEnumerated"] (Of "NativeEnumerated") [] (SpInt false);
  (* src/ranap/RANAP_Outcome.c:56-81 *)
  De "RANAP_Outcome" ["SEQUENCE"; "SEQUENCE"; "SEQUENCE"; "SEQUENCE"] (Of "SEQUENCE") [El false 0 "RANAP_Outcome" ["procedureCode"] "RANAP_ProcedureCode" "";
    El false 0 "RANAP_Outcome" ["criticality"] "RANAP_Criticality" "";
    El false 0 "RANAP_Outcome" ["value"] "ANY" ""] (SpSeq "RANAP_Outcome" ("RANAP_Outcome", "_asn_ctx") [] 0 0);
  (* src/ranap/RANAP_Overload.c:66-92 *)
  De "RANAP_Overload:overload_ies_2" ["SEQUENCE_OF"; "SEQUENCE_OF"; "SEQUENCE_OF"; "SEQUENCE_OF"] (Of "SEQUENCE_OF") [El true 0 "" [] "RANAP_IE" ""] (SpList "RANAP_Overload__overload_ies" ("RANAP_Overload__overload_ies", "_asn_ctx"));
  (* src/ranap/RANAP_Overload.c:120-145 *)
  De "RANAP_Overload" ["SEQUENCE"; "SEQUENCE"; "SEQUENCE"; "SEQUENCE"] (Of "SEQUENCE") [El false 0 "RANAP_Overload" ["overload_ies"] "RANAP_Overload:overload_ies_2" "A_SEQUENCE_OF"] (SpSeq "RANAP_Overload" ("RANAP_Overload", "_asn_ctx") [] 0 0);
  (* src/ranap/RANAP_P-TMSI.c:142-166 *)
  De "RANAP_P_TMSI" ["OCTET_STRING"; "OCTET_STRING"; "OCTET_STRING"; "OCTET_STRING"] (Cast "OCTET_STRING_t") [] (SpNone);
  (* src/ranap/RANAP_PDP-Type-extension.c:141-165 *)
  De "RANAP_PDP_Type_extension" ["NativeEnumerated"; "NativeEnumerated"; "NativeEnumerated"; "NativeEnumerated"] (Of "NativeEnumerated") [] (SpInt false);
  (* src/ranap/RANAP_PDP-Type.c:149-173 *)
  De "RANAP_PDP_Type" ["NativeEnumerated"; "NativeEnumerated"; "NativeEnumerated"; "NativeEnumerated"] (Of "NativeEnumerated") [] (SpInt false);
  (* src/ranap/RANAP_PDP-TypeInformation-extension.c:34-59 *)
  De "RANAP_PDP_TypeInformation_extension" ["SEQUENCE_OF"; "SEQUENCE_OF"; "SEQUENCE_OF"; "SEQUENCE_OF"] (Of "SEQUENCE_OF") [El true 0 "" [] "RANAP_PDP_Type_extension" ""] (SpList "RANAP_PDP_TypeInformation_extension" ("RANAP_PDP_TypeInformation_extension", "_asn_ctx"));
  (* src/ranap/RANAP_PDP-TypeInformation.c:34-59 *)
  De "RANAP_PDP_TypeInformation" ["SEQUENCE_OF"; "SEQUENCE_OF"; "SEQUENCE_OF"; "SEQUENCE_OF"] (Of "SEQUENCE_OF") [El true 0 "" [] "RANAP_PDP_Type" ""] (SpList "RANAP_PDP_TypeInformation" ("RANAP_PDP_TypeInformation", "_asn_ctx"));
  (* src/ranap/RANAP_PDUType14FrameSequenceNumber.c:141-165 *)
  De "RANAP_PDUType14FrameSequenceNumber" ["NativeInteger"; "NativeInteger"; "NativeInteger"; "NativeInteger"] (Cast "long") [] (SpNone);
  (* src/ranap/RANAP_PLMNidentity.c:142-166 *)
  De "RANAP_PLMNidentity" ["OCTET_STRING"; "OCTET_STRING"; "OCTET_STRING"; "OCTET_STRING"] (Cast "OCTET_STRING_t") [] (SpNone);
  (* src/ranap/RANAP_PLMNs-in-shared-network-Value.c:58-83 *)
  De "RANAP_PLMNs_in_shared_network_Value" ["SEQUENCE"; "SEQUENCE"; "SEQUENCE"; "SEQUENCE"] (Of "SEQUENCE") [El false 0 "RANAP_PLMNs_in_shared_network_Value" ["pLMNidentity"] "RANAP_PLMNidentity" "";
    El false 0 "RANAP_PLMNs_in_shared_network_Value" ["lA_LIST"] "RANAP_LA_LIST" "";
    El true 1 "RANAP_PLMNs_in_shared_network_Value" ["iE_Extensions"] "RANAP_IE_Extensions" ""] (SpSeq "RANAP_PLMNs_in_shared_network_Value" ("RANAP_PLMNs_in_shared_network_Value", "_asn_ctx") [2] 1 0);
  (* src/ranap/RANAP_PLMNs-in-shared-network.c:34-59 *)
  De "RANAP_PLMNs_in_shared_network" ["SEQUENCE_OF"; "SEQUENCE_OF"; "SEQUENCE_OF"; "SEQUENCE_OF"] (Of "SEQUENCE_OF") [El true 0 "" [] "RANAP_PLMNs_in_shared_network_Value" ""] (SpList "RANAP_PLMNs_in_shared_network" ("RANAP_PLMNs_in_shared_network", "_asn_ctx"));
  (* src/ranap/RANAP_Paging.c:66-92 *)
  De "RANAP_Paging:paging_ies_2" ["SEQUENCE_OF"; "SEQUENCE_OF"; "SEQUENCE_OF"; "SEQUENCE_OF"] (Of "SEQUENCE_OF") [El true 0 "" [] "RANAP_IE" ""] (SpList "RANAP_Paging__paging_ies" ("RANAP_Paging__paging_ies", "_asn_ctx"));
  (* src/ranap/RANAP_Paging.c:120-145 *)
  De "RANAP_Paging" ["SEQUENCE"; "SEQUENCE"; "SEQUENCE"; "SEQUENCE"] (Of "SEQUENCE") [El false 0 "RANAP_Paging" ["paging_ies"] "RANAP_Paging:paging_ies_2" "A_SEQUENCE_OF"] (SpSeq "RANAP_Paging" ("RANAP_Paging", "_asn_ctx") [] 0 0);
  (* src/ranap/RANAP_PagingAreaID.c:49-72 *)
  De "RANAP_PagingAreaID" ["CHOICE"; "CHOICE"; "CHOICE"; "CHOICE"] (Of "CHOICE") [El false 0 "RANAP_PagingAreaID" ["choice"; "lAI"] "RANAP_LAI" "";
    El false 0 "RANAP_PagingAreaID" ["choice"; "rAI"] "RANAP_RAI" ""] (SpChoice "RANAP_PagingAreaID" ("RANAP_PagingAreaID", "_asn_ctx") ("RANAP_PagingAreaID", "present") ("RANAP_PagingAreaID", "present"));
  (* src/ranap/RANAP_PagingCause.c:151-175 *)
  De "RANAP_PagingCause" ["NativeEnumerated"; "NativeEnumerated"; "NativeEnumerated"; "NativeEnumerated"] (Of "NativeEnumerated") [] (SpInt false);
  (* src/ranap/RANAP_PeriodicLocationInfo.c:118-143 *)
  De "RANAP_PeriodicLocationInfo" ["SEQUENCE"; "SEQUENCE"; "SEQUENCE"; "SEQUENCE"] (Of "SEQUENCE") [El false 0 "RANAP_PeriodicLocationInfo" ["reportingAmount"] "NativeInteger" "long";
    El false 0 "RANAP_PeriodicLocationInfo" ["reportingInterval"] "NativeInteger" "long";
    El true 1 "RANAP_PeriodicLocationInfo" ["iE_Extensions"] "RANAP_IE_Extensions" ""] (SpSeq "RANAP_PeriodicLocationInfo" ("RANAP_PeriodicLocationInfo", "_asn_ctx") [2] 1 0);
  (* src/ranap/RANAP_PeriodicReportingIndicator.c:143-167 *)
  De "RANAP_PeriodicReportingIndicator" ["NativeEnumerated"; "NativeEnumerated"; "NativeEnumerated"; "NativeEnumerated"] (Of "NativeEnumerated") [] (SpInt false);
  (* src/ranap/RANAP_PermanentNAS-UE-ID.c:39-62 *)
  De "RANAP_PermanentNAS_UE_ID" ["CHOICE"; "CHOICE"; "CHOICE"; "CHOICE"] (Of "CHOICE") [El false 0 "RANAP_PermanentNAS_UE_ID" ["choice"; "iMSI"] "RANAP_IMSI" ""] (SpChoice "RANAP_PermanentNAS_UE_ID" ("RANAP_PermanentNAS_UE_ID", "_asn_ctx") ("RANAP_PermanentNAS_UE_ID", "present") ("RANAP_PermanentNAS_UE_ID", "present"));
  (* src/ranap/RANAP_PermittedEncryptionAlgorithms.c:34-59 *)
  De "RANAP_PermittedEncryptionAlgorithms" ["SEQUENCE_OF"; "SEQUENCE_OF"; "SEQUENCE_OF"; "SEQUENCE_OF"] (Of "SEQUENCE_OF") [El true 0 "" [] "RANAP_EncryptionAlgorithm" ""] (SpList "RANAP_PermittedEncryptionAlgorithms" ("RANAP_PermittedEncryptionAlgorithms", "_asn_ctx"));
  (* src/ranap/RANAP_PermittedIntegrityProtectionAlgorithms.c:34-59 *)
  De "RANAP_PermittedIntegrityProtectionAlgorithms" ["SEQUENCE_OF"; "SEQUENCE_OF"; "SEQUENCE_OF"; "SEQUENCE_OF"] (Of "SEQUENCE_OF") [El true 0 "" [] "RANAP_IntegrityProtectionAlgorithm" ""] (SpList "RANAP_PermittedIntegrityProtectionAlgorithms" ("RANAP_PermittedIntegrityProtectionAlgorithms", "_asn_ctx"));
  (* src/ranap/RANAP_Port-Number.c:142-166 *)
  De "RANAP_Port_Number" ["OCTET_STRING"; "OCTET_STRING"; "OCTET_STRING"; "OCTET_STRING"] (Cast "OCTET_STRING_t") [] (SpNone);
  (* src/ranap/RANAP_PositionData.c:58-83 *)
  De "RANAP_PositionData" ["SEQUENCE"; "SEQUENCE"; "SEQUENCE"; "SEQUENCE"] (Of "SEQUENCE") [El false 0 "RANAP_PositionData" ["positioningDataDiscriminator"] "RANAP_PositioningDataDiscriminator" "";
    El true 2 "RANAP_PositionData" ["positioningDataSet"] "RANAP_PositioningDataSet" "";
    El true 1 "RANAP_PositionData" ["iE_Extensions"] "RANAP_IE_Extensions" ""] (SpSeq "RANAP_PositionData" ("RANAP_PositionData", "_asn_ctx") [1; 2] 2 0);
  (* src/ranap/RANAP_PositionDataSpecificToGERANIuMode.c:119-143 *)
  De "RANAP_PositionDataSpecificToGERANIuMode" ["OCTET_STRING"; "OCTET_STRING"; "OCTET_STRING"; "OCTET_STRING"] (Of "OCTET_STRING") [] (SpNone);
  (* src/ranap/RANAP_PositioningDataDiscriminator.c:147-171 *)
  De "RANAP_PositioningDataDiscriminator" ["BIT_STRING"; "BIT_STRING"; "BIT_STRING"; "BIT_STRING"] (Cast "BIT_STRING_t") [] (SpNone);
  (* src/ranap/RANAP_PositioningDataSet.c:34-59 *)
  De "RANAP_PositioningDataSet" ["SEQUENCE_OF"; "SEQUENCE_OF"; "SEQUENCE_OF"; "SEQUENCE_OF"] (Of "SEQUENCE_OF") [El true 0 "" [] "RANAP_PositioningMethodAndUsage" ""] (SpList "RANAP_PositioningDataSet" ("RANAP_PositioningDataSet", "_asn_ctx"));
  (* src/ranap/RANAP_PositioningMethodAndUsage.c:142-166 *)
  De "RANAP_PositioningMethodAndUsage" ["OCTET_STRING"; "OCTET_STRING"; "OCTET_STRING"; "OCTET_STRING"] (Cast "OCTET_STRING_t") [] (SpNone);
  (* src/ranap/RANAP_PositioningPriority.c:143-167 *)
  De "RANAP_PositioningPriority" ["NativeEnumerated"; "NativeEnumerated"; "NativeEnumerated"; "NativeEnumerated"] (Of "NativeEnumerated") [] (SpInt false);
  (* src/ranap/RANAP_Pre-emptionCapability.c:141-165 *)
  De "RANAP_Pre_emptionCapability" ["NativeEnumerated"; "NativeEnumerated"; "NativeEnumerated"; "NativeEnumerated"] (Of "NativeEnumerated") [] (SpInt false);
  (* src/ranap/RANAP_Pre-emptionVulnerability.c:141-165 *)
  De "RANAP_Pre_emptionVulnerability" ["NativeEnumerated"; "NativeEnumerated"; "NativeEnumerated"; "NativeEnumerated"] (Of "NativeEnumerated") [] (SpInt false);
  (* src/ranap/RANAP_Presence.c:143-167 *)
  De "RANAP_Presence" ["NativeEnumerated"; "NativeEnumerated"; "NativeEnumerated"; "NativeEnumerated"] (Of "NativeEnumerated") [] (SpInt false);
  (* src/ranap/RANAP_Priority-Class-Indicator.c:147-171 *)
  De "RANAP_Priority_Class_Indicator" ["BIT_STRING"; "BIT_STRING"; "BIT_STRING"; "BIT_STRING"] (Cast "BIT_STRING_t") [] (SpNone);
  (* src/ranap/RANAP_PriorityLevel.c:141-165 *)
  De "RANAP_PriorityLevel" ["NativeInteger"; "NativeInteger"; "NativeInteger"; "NativeInteger"] (Cast "long") [] (SpNone);
  (* src/ranap/RANAP_PrivateIE-ID.c:79-102 *)
  De "RANAP_PrivateIE_ID" ["CHOICE"; "CHOICE"; "CHOICE"; "CHOICE"] (Of "CHOICE") [El false 0 "RANAP_PrivateIE_ID" ["choice"; "local"] "NativeInteger" "long";
    El false 0 "RANAP_PrivateIE_ID" ["choice"; "global"] "OBJECT_IDENTIFIER" ""] (SpChoice "RANAP_PrivateIE_ID" ("RANAP_PrivateIE_ID", "_asn_ctx") ("RANAP_PrivateIE_ID", "present") ("RANAP_PrivateIE_ID", "present"));
  (* src/ranap/RANAP_PrivateMessage.c:66-92 *)
  De "RANAP_PrivateMessage:privateMessage_ies_2" ["SEQUENCE_OF"; "SEQUENCE_OF"; "SEQUENCE_OF"; "SEQUENCE_OF"] (Of "SEQUENCE_OF") [El true 0 "" [] "RANAP_IE" ""] (SpList "RANAP_PrivateMessage__privateMessage_ies" ("RANAP_PrivateMessage__privateMessage_ies", "_asn_ctx"));
  (* src/ranap/RANAP_PrivateMessage.c:120-145 *)
  De "RANAP_PrivateMessage" ["SEQUENCE"; "SEQUENCE"; "SEQUENCE"; "SEQUENCE"] (Of "SEQUENCE") [El false 0 "RANAP_PrivateMessage" ["privateMessage_ies"] "RANAP_PrivateMessage:privateMessage_ies_2" "A_SEQUENCE_OF"] (SpSeq "RANAP_PrivateMessage" ("RANAP_PrivateMessage", "_asn_ctx") [] 0 0);
  (* src/ranap/RANAP_ProcedureCode.c:141-165 *)
  De "RANAP_ProcedureCode" ["NativeInteger"; "NativeInteger"; "NativeInteger"; "NativeInteger"] (Cast "long") [] (SpNone);
  (* src/ranap/RANAP_ProtocolError-IE-ContainerList.c:34-59 *)
  De "RANAP_ProtocolError_IE_ContainerList" ["SEQUENCE_OF"; "SEQUENCE_OF"; "SEQUENCE_OF"; "SEQUENCE_OF"] (Of "SEQUENCE_OF") [El true 0 "" [] "RANAP_ProtocolIE_Container" ""] (SpList "RANAP_ProtocolError_IE_ContainerList" ("RANAP_ProtocolError_IE_ContainerList", "_asn_ctx"));
  (* src/ranap/RANAP_ProtocolExtensionContainer.c:34-59 *)
  De "RANAP_ProtocolExtensionContainer" ["SEQUENCE_OF"; "SEQUENCE_OF"; "SEQUENCE_OF"; "SEQUENCE_OF"] (Of "SEQUENCE_OF") [El true 0 "" [] "RANAP_ProtocolExtensionField" ""] (SpList "RANAP_ProtocolExtensionContainer" ("RANAP_ProtocolExtensionContainer", "_asn_ctx"));
  (* src/ranap/RANAP_ProtocolExtensionField.c:56-81 *)
  De "RANAP_ProtocolExtensionField" ["SEQUENCE"; "SEQUENCE"; "SEQUENCE"; "SEQUENCE"] (Of "SEQUENCE") [El false 0 "RANAP_ProtocolExtensionField" ["id"] "RANAP_ProtocolIE_ID" "";
    El false 0 "RANAP_ProtocolExtensionField" ["criticality"] "RANAP_Criticality" "";
    El false 0 "RANAP_ProtocolExtensionField" ["value"] "ANY" ""] (SpSeq "RANAP_ProtocolExtensionField" ("RANAP_ProtocolExtensionField", "_asn_ctx") [] 0 0);
  (* src/ranap/RANAP_ProtocolExtensionID.c:141-165 *)
  De "RANAP_ProtocolExtensionID" ["NativeInteger"; "NativeInteger"; "NativeInteger"; "NativeInteger"] (Cast "long") [] (SpNone);
  (* src/ranap/RANAP_ProtocolIE-Container.c:34-59 *)
  De "RANAP_ProtocolIE_Container" ["SEQUENCE_OF"; "SEQUENCE_OF"; "SEQUENCE_OF"; "SEQUENCE_OF"] (Of "SEQUENCE_OF") [El true 0 "" [] "RANAP_IE" ""] (SpList "RANAP_ProtocolIE_Container" ("RANAP_ProtocolIE_Container", "_asn_ctx"));
  (* src/ranap/RANAP_ProtocolIE-ContainerPair.c:34-59 *)
  De "RANAP_ProtocolIE_ContainerPair" ["SEQUENCE_OF"; "SEQUENCE_OF"; "SEQUENCE_OF"; "SEQUENCE_OF"] (Of "SEQUENCE_OF") [El true 0 "" [] "RANAP_ProtocolIE_FieldPair" ""] (SpList "RANAP_ProtocolIE_ContainerPair" ("RANAP_ProtocolIE_ContainerPair", "_asn_ctx"));
  (* src/ranap/RANAP_ProtocolIE-FieldPair.c:76-101 *)
  De "RANAP_ProtocolIE_FieldPair" ["SEQUENCE"; "SEQUENCE"; "SEQUENCE"; "SEQUENCE"] (Of "SEQUENCE") [El false 0 "RANAP_ProtocolIE_FieldPair" ["id"] "RANAP_ProtocolIE_ID" "";
    El false 0 "RANAP_ProtocolIE_FieldPair" ["firstCriticality"] "RANAP_Criticality" "";
    El false 0 "RANAP_ProtocolIE_FieldPair" ["firstValue"] "ANY" "";
    El false 0 "RANAP_ProtocolIE_FieldPair" ["secondCriticality"] "RANAP_Criticality" "";
    El false 0 "RANAP_ProtocolIE_FieldPair" ["secondValue"] "ANY" ""] (SpSeq "RANAP_ProtocolIE_FieldPair" ("RANAP_ProtocolIE_FieldPair", "_asn_ctx") [] 0 0);
  (* src/ranap/RANAP_ProtocolIE-ID.c:141-165 *)
  De "RANAP_ProtocolIE_ID" ["NativeInteger"; "NativeInteger"; "NativeInteger"; "NativeInteger"] (Cast "long") [] (SpNone);
  (* src/ranap/RANAP_ProvidedData.c:39-62 *)
  De "RANAP_ProvidedData" ["CHOICE"; "CHOICE"; "CHOICE"; "CHOICE"] (Of "CHOICE") [El false 0 "RANAP_ProvidedData" ["choice"; "shared_network_information"] "RANAP_Shared_Network_Information" ""] (SpChoice "RANAP_ProvidedData" ("RANAP_ProvidedData", "_asn_ctx") ("RANAP_ProvidedData", "present") ("RANAP_ProvidedData", "present"));
  (* src/ranap/RANAP_QueuingAllowed.c:141-165 *)
  De "RANAP_QueuingAllowed" ["NativeEnumerated"; "NativeEnumerated"; "NativeEnumerated"; "NativeEnumerated"] (Of "NativeEnumerated") [] (SpInt false);
  (* src/ranap/RANAP_RAB-AssignmentRequest.c:66-92 *)
  De "RANAP_RAB-AssignmentRequest:raB_AssignmentRequest_ies_2" ["SEQUENCE_OF"; "SEQUENCE_OF"; "SEQUENCE_OF"; "SEQUENCE_OF"] (Of "SEQUENCE_OF") [El true 0 "" [] "RANAP_IE" ""] (SpList "RANAP_RAB_AssignmentRequest__raB_AssignmentRequest_ies" ("RANAP_RAB_AssignmentRequest__raB_AssignmentRequest_ies", "_asn_ctx"));
  (* src/ranap/RANAP_RAB-AssignmentRequest.c:120-145 *)
  De "RANAP_RAB_AssignmentRequest" ["SEQUENCE"; "SEQUENCE"; "SEQUENCE"; "SEQUENCE"] (Of "SEQUENCE") [El false 0 "RANAP_RAB_AssignmentRequest" ["raB_AssignmentRequest_ies"] "RANAP_RAB-AssignmentRequest:raB_AssignmentRequest_ies_2" "A_SEQUENCE_OF"] (SpSeq "RANAP_RAB_AssignmentRequest" ("RANAP_RAB_AssignmentRequest", "_asn_ctx") [] 0 0);
  (* src/ranap/RANAP_RAB-AssignmentResponse.c:66-92 *)
  De "RANAP_RAB-AssignmentResponse:raB_AssignmentResponse_ies_2" ["SEQUENCE_OF"; "SEQUENCE_OF"; "SEQUENCE_OF"; "SEQUENCE_OF"] (Of "SEQUENCE_OF") [El true 0 "" [] "RANAP_IE" ""] (SpList "RANAP_RAB_AssignmentResponse__raB_AssignmentResponse_ies" ("RANAP_RAB_AssignmentResponse__raB_AssignmentResponse_ies", "_asn_ctx"));
  (* src/ranap/RANAP_RAB-AssignmentResponse.c:120-145 *)
  De "RANAP_RAB_AssignmentResponse" ["SEQUENCE"; "SEQUENCE"; "SEQUENCE"; "SEQUENCE"] (Of "SEQUENCE") [El false 0 "RANAP_RAB_AssignmentResponse" ["raB_AssignmentResponse_ies"] "RANAP_RAB-AssignmentResponse:raB_AssignmentResponse_ies_2" "A_SEQUENCE_OF"] (SpSeq "RANAP_RAB_AssignmentResponse" ("RANAP_RAB_AssignmentResponse", "_asn_ctx") [] 0 0);
  (* src/ranap/RANAP_RAB-AsymmetryIndicator.c:147-171 *)
  De "RANAP_RAB_AsymmetryIndicator" ["NativeEnumerated"; "NativeEnumerated"; "NativeEnumerated"; "NativeEnumerated"] (Of "NativeEnumerated") [] (SpInt false);
  (* src/ranap/RANAP_RAB-ContextItem-RANAP-RelocInf.c:88-113 *)
  De "RANAP_RAB_ContextItem_RANAP_RelocInf" ["SEQUENCE"; "SEQUENCE"; "SEQUENCE"; "SEQUENCE"] (Of "SEQUENCE") [El false 0 "RANAP_RAB_ContextItem_RANAP_RelocInf" ["rAB_ID"] "RANAP_RAB_ID" "";
    El true 5 "RANAP_RAB_ContextItem_RANAP_RelocInf" ["dl_GTP_PDU_SequenceNumber"] "RANAP_DL_GTP_PDU_SequenceNumber" "";
    El true 4 "RANAP_RAB_ContextItem_RANAP_RelocInf" ["ul_GTP_PDU_SequenceNumber"] "RANAP_UL_GTP_PDU_SequenceNumber" "";
    El true 3 "RANAP_RAB_ContextItem_RANAP_RelocInf" ["dl_N_PDU_SequenceNumber"] "RANAP_DL_N_PDU_SequenceNumber" "";
    El true 2 "RANAP_RAB_ContextItem_RANAP_RelocInf" ["ul_N_PDU_SequenceNumber"] "RANAP_UL_N_PDU_SequenceNumber" "";
    El true 1 "RANAP_RAB_ContextItem_RANAP_RelocInf" ["iE_Extensions"] "RANAP_ProtocolExtensionContainer" ""] (SpSeq "RANAP_RAB_ContextItem_RANAP_RelocInf" ("RANAP_RAB_ContextItem_RANAP_RelocInf", "_asn_ctx") [1; 2; 3; 4; 5] 5 0);
  (* src/ranap/RANAP_RAB-ContextItem.c:88-113 *)
  De "RANAP_RAB_ContextItem" ["SEQUENCE"; "SEQUENCE"; "SEQUENCE"; "SEQUENCE"] (Of "SEQUENCE") [El false 0 "RANAP_RAB_ContextItem" ["rAB_ID"] "RANAP_RAB_ID" "";
    El true 5 "RANAP_RAB_ContextItem" ["dl_GTP_PDU_SequenceNumber"] "RANAP_DL_GTP_PDU_SequenceNumber" "";
    El true 4 "RANAP_RAB_ContextItem" ["ul_GTP_PDU_SequenceNumber"] "RANAP_UL_GTP_PDU_SequenceNumber" "";
    El true 3 "RANAP_RAB_ContextItem" ["dl_N_PDU_SequenceNumber"] "RANAP_DL_N_PDU_SequenceNumber" "";
    El true 2 "RANAP_RAB_ContextItem" ["ul_N_PDU_SequenceNumber"] "RANAP_UL_N_PDU_SequenceNumber" "";
    El true 1 "RANAP_RAB_ContextItem" ["iE_Extensions"] "RANAP_ProtocolExtensionContainer" ""] (SpSeq "RANAP_RAB_ContextItem" ("RANAP_RAB_ContextItem", "_asn_ctx") [1; 2; 3; 4; 5] 5 0);
  (* src/ranap/RANAP_RAB-ContextList-RANAP-RelocInf.c:66-92 *)
  De "RANAP_RAB-ContextList-RANAP-RelocInf:raB_ContextList_RANAP_RelocInf_ies_2" ["SEQUENCE_OF"; "SEQUENCE_OF"; "SEQUENCE_OF"; "SEQUENCE_OF"] (Of "SEQUENCE_OF") [El true 0 "" [] "RANAP_IE" ""] (SpList "RANAP_RAB_ContextList_RANAP_RelocInf__raB_ContextList_RANAP_RelocInf_ies" ("RANAP_RAB_ContextList_RANAP_RelocInf__raB_ContextList_RANAP_RelocInf_ies", "_asn_ctx"));
  (* src/ranap/RANAP_RAB-ContextList-RANAP-RelocInf.c:120-145 *)
  De "RANAP_RAB_ContextList_RANAP_RelocInf" ["SEQUENCE"; "SEQUENCE"; "SEQUENCE"; "SEQUENCE"] (Of "SEQUENCE") [El false 0 "RANAP_RAB_ContextList_RANAP_RelocInf" ["raB_ContextList_RANAP_RelocInf_ies"] "RANAP_RAB-ContextList-RANAP-RelocInf:raB_ContextList_RANAP_RelocInf_ies_2" "A_SEQUENCE_OF"] (SpSeq "RANAP_RAB_ContextList_RANAP_RelocInf" ("RANAP_RAB_ContextList_RANAP_RelocInf", "_asn_ctx") [] 0 0);
  (* src/ranap/RANAP_RAB-ContextList.c:66-92 *)
  De "RANAP_RAB-ContextList:raB_ContextList_ies_2" ["SEQUENCE_OF"; "SEQUENCE_OF"; "SEQUENCE_OF"; "SEQUENCE_OF"] (Of "SEQUENCE_OF") [El true 0 "" [] "RANAP_IE" ""] (SpList "RANAP_RAB_ContextList__raB_ContextList_ies" ("RANAP_RAB_ContextList__raB_ContextList_ies", "_asn_ctx"));
  (* src/ranap/RANAP_RAB-ContextList.c:120-145 *)
  De "RANAP_RAB_ContextList" ["SEQUENCE"; "SEQUENCE"; "SEQUENCE"; "SEQUENCE"] (Of "SEQUENCE") [El false 0 "RANAP_RAB_ContextList" ["raB_ContextList_ies"] "RANAP_RAB-ContextList:raB_ContextList_ies_2" "A_SEQUENCE_OF"] (SpSeq "RANAP_RAB_ContextList" ("RANAP_RAB_ContextList", "_asn_ctx") [] 0 0);
  (* src/ranap/RANAP_RAB-DataForwardingItem-SRNS-CtxReq.c:48-73 *)
  De "RANAP_RAB_DataForwardingItem_SRNS_CtxReq" ["SEQUENCE"; "SEQUENCE"; "SEQUENCE"; "SEQUENCE"] (Of "SEQUENCE") [El false 0 "RANAP_RAB_DataForwardingItem_SRNS_CtxReq" ["rAB_ID"] "RANAP_RAB_ID" "";
    El true 1 "RANAP_RAB_DataForwardingItem_SRNS_CtxReq" ["iE_Extensions"] "RANAP_ProtocolExtensionContainer" ""] (SpSeq "RANAP_RAB_DataForwardingItem_SRNS_CtxReq" ("RANAP_RAB_DataForwardingItem_SRNS_CtxReq", "_asn_ctx") [1] 1 0);
  (* src/ranap/RANAP_RAB-DataForwardingItem.c:68-93 *)
  De "RANAP_RAB_DataForwardingItem" ["SEQUENCE"; "SEQUENCE"; "SEQUENCE"; "SEQUENCE"] (Of "SEQUENCE") [El false 0 "RANAP_RAB_DataForwardingItem" ["rAB_ID"] "RANAP_RAB_ID" "";
    El false 0 "RANAP_RAB_DataForwardingItem" ["transportLayerAddress"] "RANAP_TransportLayerAddress" "";
    El false 0 "RANAP_RAB_DataForwardingItem" ["iuTransportAssociation"] "RANAP_IuTransportAssociation" "";
    El true 1 "RANAP_RAB_DataForwardingItem" ["iE_Extensions"] "RANAP_ProtocolExtensionContainer" ""] (SpSeq "RANAP_RAB_DataForwardingItem" ("RANAP_RAB_DataForwardingItem", "_asn_ctx") [3] 1 0);
  (* src/ranap/RANAP_RAB-DataForwardingList-SRNS-CtxReq.c:66-92 *)
  De "RANAP_RAB-DataForwardingList-SRNS-CtxReq:raB_DataForwardingList_SRNS_CtxReq_ies_2" ["SEQUENCE_OF"; "SEQUENCE_OF"; "SEQUENCE_OF"; "SEQUENCE_OF"] (Of "SEQUENCE_OF") [El true 0 "" [] "RANAP_IE" ""] (SpList "RANAP_RAB_DataForwardingList_SRNS_CtxReq__raB_DataForwardingList_SRNS_CtxReq_ies" ("RANAP_RAB_DataForwardingList_SRNS_CtxReq__raB_DataForwardingList_SRNS_CtxReq_ies", "_asn_ctx"));
  (* src/ranap/RANAP_RAB-DataForwardingList-SRNS-CtxReq.c:120-145 *)
  De "RANAP_RAB_DataForwardingList_SRNS_CtxReq" ["SEQUENCE"; "SEQUENCE"; "SEQUENCE"; "SEQUENCE"] (Of "SEQUENCE") [El false 0 "RANAP_RAB_DataForwardingList_SRNS_CtxReq" ["raB_DataForwardingList_SRNS_CtxReq_ies"] "RANAP_RAB-DataForwardingList-SRNS-CtxReq:raB_DataForwardingList_SRNS_CtxReq_ies_2" "A_SEQUENCE_OF"] (SpSeq "RANAP_RAB_DataForwardingList_SRNS_CtxReq" ("RANAP_RAB_DataForwardingList_SRNS_CtxReq", "_asn_ctx") [] 0 0);
  (* src/ranap/RANAP_RAB-DataForwardingList.c:66-92 *)
  De "RANAP_RAB-DataForwardingList:raB_DataForwardingList_ies_2" ["SEQUENCE_OF"; "SEQUENCE_OF"; "SEQUENCE_OF"; "SEQUENCE_OF"] (Of "SEQUENCE_OF") [El true 0 "" [] "RANAP_IE" ""] (SpList "RANAP_RAB_DataForwardingList__raB_DataForwardingList_ies" ("RANAP_RAB_DataForwardingList__raB_DataForwardingList_ies", "_asn_ctx"));
  (* src/ranap/RANAP_RAB-DataForwardingList.c:120-145 *)
  De "RANAP_RAB_DataForwardingList" ["SEQUENCE"; "SEQUENCE"; "SEQUENCE"; "SEQUENCE"] (Of "SEQUENCE") [El false 0 "RANAP_RAB_DataForwardingList" ["raB_DataForwardingList_ies"] "RANAP_RAB-DataForwardingList:raB_DataForwardingList_ies_2" "A_SEQUENCE_OF"] (SpSeq "RANAP_RAB_DataForwardingList" ("RANAP_RAB_DataForwardingList", "_asn_ctx") [] 0 0);
  (* src/ranap/RANAP_RAB-DataVolumeReportItem.c:58-83 *)
  De "RANAP_RAB_DataVolumeReportItem" ["SEQUENCE"; "SEQUENCE"; "SEQUENCE"; "SEQUENCE"] (Of "SEQUENCE") [El false 0 "RANAP_RAB_DataVolumeReportItem" ["rAB_ID"] "RANAP_RAB_ID" "";
    El true 2 "RANAP_RAB_DataVolumeReportItem" ["dl_UnsuccessfullyTransmittedDataVolume"] "RANAP_DataVolumeList" "";
    El true 1 "RANAP_RAB_DataVolumeReportItem" ["iE_Extensions"] "RANAP_ProtocolExtensionContainer" ""] (SpSeq "RANAP_RAB_DataVolumeReportItem" ("RANAP_RAB_DataVolumeReportItem", "_asn_ctx") [1; 2] 2 0);
  (* src/ranap/RANAP_RAB-DataVolumeReportList.c:66-92 *)
  De "RANAP_RAB-DataVolumeReportList:raB_DataVolumeReportList_ies_2" ["SEQUENCE_OF"; "SEQUENCE_OF"; "SEQUENCE_OF"; "SEQUENCE_OF"] (Of "SEQUENCE_OF") [El true 0 "" [] "RANAP_IE" ""] (SpList "RANAP_RAB_DataVolumeReportList__raB_DataVolumeReportList_ies" ("RANAP_RAB_DataVolumeReportList__raB_DataVolumeReportList_ies", "_asn_ctx"));
  (* src/ranap/RANAP_RAB-DataVolumeReportList.c:120-145 *)
  De "RANAP_RAB_DataVolumeReportList" ["SEQUENCE"; "SEQUENCE"; "SEQUENCE"; "SEQUENCE"] (Of "SEQUENCE") [El false 0 "RANAP_RAB_DataVolumeReportList" ["raB_DataVolumeReportList_ies"] "RANAP_RAB-DataVolumeReportList:raB_DataVolumeReportList_ies_2" "A_SEQUENCE_OF"] (SpSeq "RANAP_RAB_DataVolumeReportList" ("RANAP_RAB_DataVolumeReportList", "_asn_ctx") [] 0 0);
  (* src/ranap/RANAP_RAB-DataVolumeReportRequestItem.c:48-73 *)
  De "RANAP_RAB_DataVolumeReportRequestItem" ["SEQUENCE"; "SEQUENCE"; "SEQUENCE"; "SEQUENCE"] (Of "SEQUENCE") [El false 0 "RANAP_RAB_DataVolumeReportRequestItem" ["rAB_ID"] "RANAP_RAB_ID" "";
    El true 1 "RANAP_RAB_DataVolumeReportRequestItem" ["iE_Extensions"] "RANAP_ProtocolExtensionContainer" ""] (SpSeq "RANAP_RAB_DataVolumeReportRequestItem" ("RANAP_RAB_DataVolumeReportRequestItem", "_asn_ctx") [1] 1 0);
  (* src/ranap/RANAP_RAB-DataVolumeReportRequestList.c:66-92 *)
  De "RANAP_RAB-DataVolumeReportRequestList:raB_DataVolumeReportRequestList_ies_2" ["SEQUENCE_OF"; "SEQUENCE_OF"; "SEQUENCE_OF"; "SEQUENCE_OF"] (Of "SEQUENCE_OF") [El true 0 "" [] "RANAP_IE" ""] (SpList "RANAP_RAB_DataVolumeReportRequestList__raB_DataVolumeReportRequestList_ies" ("RANAP_RAB_DataVolumeReportRequestList__raB_DataVolumeReportRequestList_ies", "_asn_ctx"));
  (* src/ranap/RANAP_RAB-DataVolumeReportRequestList.c:120-145 *)
  De "RANAP_RAB_DataVolumeReportRequestList" ["SEQUENCE"; "SEQUENCE"; "SEQUENCE"; "SEQUENCE"] (Of "SEQUENCE") [El false 0 "RANAP_RAB_DataVolumeReportRequestList" ["raB_DataVolumeReportRequestList_ies"] "RANAP_RAB-DataVolumeReportRequestList:raB_DataVolumeReportRequestList_ies_2" "A_SEQUENCE_OF"] (SpSeq "RANAP_RAB_DataVolumeReportRequestList" ("RANAP_RAB_DataVolumeReportRequestList", "_asn_ctx") [] 0 0);
  (* src/ranap/RANAP_RAB-FailedItem-EnhRelocInfoRes.c:68-93 *)
  De "RANAP_RAB_FailedItem_EnhRelocInfoRes" ["SEQUENCE"; "SEQUENCE"; "SEQUENCE"; "SEQUENCE"] (Of "SEQUENCE") [El false 0 "RANAP_RAB_FailedItem_EnhRelocInfoRes" ["cN_DomainIndicator"] "RANAP_CN_DomainIndicator" "";
    El false 0 "RANAP_RAB_FailedItem_EnhRelocInfoRes" ["rAB_ID"] "RANAP_RAB_ID" "";
    El false 0 "RANAP_RAB_FailedItem_EnhRelocInfoRes" ["cause"] "RANAP_Cause" "";
    El true 1 "RANAP_RAB_FailedItem_EnhRelocInfoRes" ["iE_Extensions"] "RANAP_ProtocolExtensionContainer" ""] (SpSeq "RANAP_RAB_FailedItem_EnhRelocInfoRes" ("RANAP_RAB_FailedItem_EnhRelocInfoRes", "_asn_ctx") [3] 1 0);
  (* src/ranap/RANAP_RAB-FailedItem.c:58-83 *)
  De "RANAP_RAB_FailedItem" ["SEQUENCE"; "SEQUENCE"; "SEQUENCE"; "SEQUENCE"] (Of "SEQUENCE") [El false 0 "RANAP_RAB_FailedItem" ["rAB_ID"] "RANAP_RAB_ID" "";
    El false 0 "RANAP_RAB_FailedItem" ["cause"] "RANAP_Cause" "";
    El true 1 "RANAP_RAB_FailedItem" ["iE_Extensions"] "RANAP_ProtocolExtensionContainer" ""] (SpSeq "RANAP_RAB_FailedItem" ("RANAP_RAB_FailedItem", "_asn_ctx") [2] 1 0);
  (* src/ranap/RANAP_RAB-FailedList-EnhRelocInfoRes.c:66-92 *)
  De "RANAP_RAB-FailedList-EnhRelocInfoRes:raB_FailedList_EnhRelocInfoRes_ies_2" ["SEQUENCE_OF"; "SEQUENCE_OF"; "SEQUENCE_OF"; "SEQUENCE_OF"] (Of "SEQUENCE_OF") [El true 0 "" [] "RANAP_IE" ""] (SpList "RANAP_RAB_FailedList_EnhRelocInfoRes__raB_FailedList_EnhRelocInfoRes_ies" ("RANAP_RAB_FailedList_EnhRelocInfoRes__raB_FailedList_EnhRelocInfoRes_ies", "_asn_ctx"));
  (* src/ranap/RANAP_RAB-FailedList-EnhRelocInfoRes.c:120-145 *)
  De "RANAP_RAB_FailedList_EnhRelocInfoRes" ["SEQUENCE"; "SEQUENCE"; "SEQUENCE"; "SEQUENCE"] (Of "SEQUENCE") [El false 0 "RANAP_RAB_FailedList_EnhRelocInfoRes" ["raB_FailedList_EnhRelocInfoRes_ies"] "RANAP_RAB-FailedList-EnhRelocInfoRes:raB_FailedList_EnhRelocInfoRes_ies_2" "A_SEQUENCE_OF"] (SpSeq "RANAP_RAB_FailedList_EnhRelocInfoRes" ("RANAP_RAB_FailedList_EnhRelocInfoRes", "_asn_ctx") [] 0 0);
  (* src/ranap/RANAP_RAB-FailedList.c:66-92 *)
  De "RANAP_RAB-FailedList:raB_FailedList_ies_2" ["SEQUENCE_OF"; "SEQUENCE_OF"; "SEQUENCE_OF"; "SEQUENCE_OF"] (Of "SEQUENCE_OF") [El true 0 "" [] "RANAP_IE" ""] (SpList "RANAP_RAB_FailedList__raB_FailedList_ies" ("RANAP_RAB_FailedList__raB_FailedList_ies", "_asn_ctx"));
  (* src/ranap/RANAP_RAB-FailedList.c:120-145 *)
  De "RANAP_RAB_FailedList" ["SEQUENCE"; "SEQUENCE"; "SEQUENCE"; "SEQUENCE"] (Of "SEQUENCE") [El false 0 "RANAP_RAB_FailedList" ["raB_FailedList_ies"] "RANAP_RAB-FailedList:raB_FailedList_ies_2" "A_SEQUENCE_OF"] (SpSeq "RANAP_RAB_FailedList" ("RANAP_RAB_FailedList", "_asn_ctx") [] 0 0);
  (* src/ranap/RANAP_RAB-ID.c:147-171 *)
  De "RANAP_RAB_ID" ["BIT_STRING"; "BIT_STRING"; "BIT_STRING"; "BIT_STRING"] (Cast "BIT_STRING_t") [] (SpNone);
  (* src/ranap/RANAP_RAB-IE-ContainerList.c:34-59 *)
  De "RANAP_RAB_IE_ContainerList" ["SEQUENCE_OF"; "SEQUENCE_OF"; "SEQUENCE_OF"; "SEQUENCE_OF"] (Of "SEQUENCE_OF") [El true 0 "" [] "RANAP_ProtocolIE_Container" ""] (SpList "RANAP_RAB_IE_ContainerList" ("RANAP_RAB_IE_ContainerList", "_asn_ctx"));
  (* src/ranap/RANAP_RAB-IE-ContainerPairList.c:34-59 *)
  De "RANAP_RAB_IE_ContainerPairList" ["SEQUENCE_OF"; "SEQUENCE_OF"; "SEQUENCE_OF"; "SEQUENCE_OF"] (Of "SEQUENCE_OF") [El true 0 "" [] "RANAP_ProtocolIE_ContainerPair" ""] (SpList "RANAP_RAB_IE_ContainerPairList" ("RANAP_RAB_IE_ContainerPairList", "_asn_ctx"));
  (* src/ranap/RANAP_RAB-ModifyItem.c:58-83 *)
  De "RANAP_RAB_ModifyItem" ["SEQUENCE"; "SEQUENCE"; "SEQUENCE"; "SEQUENCE"] (Of "SEQUENCE") [El false 0 "RANAP_RAB_ModifyItem" ["rAB_ID"] "RANAP_RAB_ID" "";
    El false 0 "RANAP_RAB_ModifyItem" ["requested_RAB_Parameter_Values"] "RANAP_Requested_RAB_Parameter_Values" "";
    El true 1 "RANAP_RAB_ModifyItem" ["iE_Extensions"] "RANAP_ProtocolExtensionContainer" ""] (SpSeq "RANAP_RAB_ModifyItem" ("RANAP_RAB_ModifyItem", "_asn_ctx") [2] 1 0);
  (* src/ranap/RANAP_RAB-ModifyList.c:66-92 *)
  De "RANAP_RAB-ModifyList:raB_ModifyList_ies_2" ["SEQUENCE_OF"; "SEQUENCE_OF"; "SEQUENCE_OF"; "SEQUENCE_OF"] (Of "SEQUENCE_OF") [El true 0 "" [] "RANAP_IE" ""] (SpList "RANAP_RAB_ModifyList__raB_ModifyList_ies" ("RANAP_RAB_ModifyList__raB_ModifyList_ies", "_asn_ctx"));
  (* src/ranap/RANAP_RAB-ModifyList.c:120-145 *)
  De "RANAP_RAB_ModifyList" ["SEQUENCE"; "SEQUENCE"; "SEQUENCE"; "SEQUENCE"] (Of "SEQUENCE") [El false 0 "RANAP_RAB_ModifyList" ["raB_ModifyList_ies"] "RANAP_RAB-ModifyList:raB_ModifyList_ies_2" "A_SEQUENCE_OF"] (SpSeq "RANAP_RAB_ModifyList" ("RANAP_RAB_ModifyList", "_asn_ctx") [] 0 0);
  (* src/ranap/RANAP_RAB-ModifyRequest.c:66-92 *)
  De "RANAP_RAB-ModifyRequest:raB_ModifyRequest_ies_2" ["SEQUENCE_OF"; "SEQUENCE_OF"; "SEQUENCE_OF"; "SEQUENCE_OF"] (Of "SEQUENCE_OF") [El true 0 "" [] "RANAP_IE" ""] (SpList "RANAP_RAB_ModifyRequest__raB_ModifyRequest_ies" ("RANAP_RAB_ModifyRequest__raB_ModifyRequest_ies", "_asn_ctx"));
  (* src/ranap/RANAP_RAB-ModifyRequest.c:120-145 *)
  De "RANAP_RAB_ModifyRequest" ["SEQUENCE"; "SEQUENCE"; "SEQUENCE"; "SEQUENCE"] (Of "SEQUENCE") [El false 0 "RANAP_RAB_ModifyRequest" ["raB_ModifyRequest_ies"] "RANAP_RAB-ModifyRequest:raB_ModifyRequest_ies_2" "A_SEQUENCE_OF"] (SpSeq "RANAP_RAB_ModifyRequest" ("RANAP_RAB_ModifyRequest", "_asn_ctx") [] 0 0);
  (* src/ranap/RANAP_RAB-Parameter-ExtendedGuaranteedBitrateList.c:34-59 *)
  De "RANAP_RAB_Parameter_ExtendedGuaranteedBitrateList" ["SEQUENCE_OF"; "SEQUENCE_OF"; "SEQUENCE_OF"; "SEQUENCE_OF"] (Of "SEQUENCE_OF") [El true 0 "" [] "RANAP_ExtendedGuaranteedBitrate" ""] (SpList "RANAP_RAB_Parameter_ExtendedGuaranteedBitrateList" ("RANAP_RAB_Parameter_ExtendedGuaranteedBitrateList", "_asn_ctx"));
  (* src/ranap/RANAP_RAB-Parameter-ExtendedMaxBitrateList.c:34-59 *)
  De "RANAP_RAB_Parameter_ExtendedMaxBitrateList" ["SEQUENCE_OF"; "SEQUENCE_OF"; "SEQUENCE_OF"; "SEQUENCE_OF"] (Of "SEQUENCE_OF") [El true 0 "" [] "RANAP_ExtendedMaxBitrate" ""] (SpList "RANAP_RAB_Parameter_ExtendedMaxBitrateList" ("RANAP_RAB_Parameter_ExtendedMaxBitrateList", "_asn_ctx"));
  (* src/ranap/RANAP_RAB-Parameter-GuaranteedBitrateList.c:34-59 *)
  De "RANAP_RAB_Parameter_GuaranteedBitrateList" ["SEQUENCE_OF"; "SEQUENCE_OF"; "SEQUENCE_OF"; "SEQUENCE_OF"] (Of "SEQUENCE_OF") [El true 0 "" [] "RANAP_GuaranteedBitrate" ""] (SpList "RANAP_RAB_Parameter_GuaranteedBitrateList" ("RANAP_RAB_Parameter_GuaranteedBitrateList", "_asn_ctx"));
  (* src/ranap/RANAP_RAB-Parameter-MaxBitrateList.c:34-59 *)
  De "RANAP_RAB_Parameter_MaxBitrateList" ["SEQUENCE_OF"; "SEQUENCE_OF"; "SEQUENCE_OF"; "SEQUENCE_OF"] (Of "SEQUENCE_OF") [El true 0 "" [] "RANAP_MaxBitrate" ""] (SpList "RANAP_RAB_Parameter_MaxBitrateList" ("RANAP_RAB_Parameter_MaxBitrateList", "_asn_ctx"));
  (* src/ranap/RANAP_RAB-Parameters.c:158-183 *)
  De "RANAP_RAB_Parameters" ["SEQUENCE"; "SEQUENCE"; "SEQUENCE"; "SEQUENCE"] (Of "SEQUENCE") [El false 0 "RANAP_RAB_Parameters" ["trafficClass"] "RANAP_TrafficClass" "";
    El false 0 "RANAP_RAB_Parameters" ["rAB_AsymmetryIndicator"] "RANAP_RAB_AsymmetryIndicator" "";
    El false 0 "RANAP_RAB_Parameters" ["maxBitrate"] "RANAP_RAB_Parameter_MaxBitrateList" "";
    El true 1 "RANAP_RAB_Parameters" ["guaranteedBitRate"] "RANAP_RAB_Parameter_GuaranteedBitrateList" "";
    El false 0 "RANAP_RAB_Parameters" ["deliveryOrder"] "RANAP_DeliveryOrder" "";
    El false 0 "RANAP_RAB_Parameters" ["maxSDU_Size"] "RANAP_MaxSDU_Size" "";
    El false 0 "RANAP_RAB_Parameters" ["sDU_Parameters"] "RANAP_SDU_Parameters" "";
    El true 6 "RANAP_RAB_Parameters" ["transferDelay"] "RANAP_TransferDelay" "";
    El true 5 "RANAP_RAB_Parameters" ["trafficHandlingPriority"] "RANAP_TrafficHandlingPriority" "";
    El true 4 "RANAP_RAB_Parameters" ["allocationOrRetentionPriority"] "RANAP_AllocationOrRetentionPriority" "";
    El true 3 "RANAP_RAB_Parameters" ["sourceStatisticsDescriptor"] "RANAP_SourceStatisticsDescriptor" "";
    El true 2 "RANAP_RAB_Parameters" ["relocationRequirement"] "RANAP_RelocationRequirement" "";
    El true 1 "RANAP_RAB_Parameters" ["iE_Extensions"] "RANAP_IE_Extensions" ""] (SpSeq "RANAP_RAB_Parameters" ("RANAP_RAB_Parameters", "_asn_ctx") [3; 7; 8; 9; 10; 11; 12] 7 0);
  (* src/ranap/RANAP_RAB-QueuedItem.c:48-73 *)
  De "RANAP_RAB_QueuedItem" ["SEQUENCE"; "SEQUENCE"; "SEQUENCE"; "SEQUENCE"] (Of "SEQUENCE") [El false 0 "RANAP_RAB_QueuedItem" ["rAB_ID"] "RANAP_RAB_ID" "";
    El true 1 "RANAP_RAB_QueuedItem" ["iE_Extensions"] "RANAP_ProtocolExtensionContainer" ""] (SpSeq "RANAP_RAB_QueuedItem" ("RANAP_RAB_QueuedItem", "_asn_ctx") [1] 1 0);
  (* src/ranap/RANAP_RAB-QueuedList.c:66-92 *)
  De "RANAP_RAB-QueuedList:raB_QueuedList_ies_2" ["SEQUENCE_OF"; "SEQUENCE_OF"; "SEQUENCE_OF"; "SEQUENCE_OF"] (Of "SEQUENCE_OF") [El true 0 "" [] "RANAP_IE" ""] (SpList "RANAP_RAB_QueuedList__raB_QueuedList_ies" ("RANAP_RAB_QueuedList__raB_QueuedList_ies", "_asn_ctx"));
  (* src/ranap/RANAP_RAB-QueuedList.c:120-145 *)
  De "RANAP_RAB_QueuedList" ["SEQUENCE"; "SEQUENCE"; "SEQUENCE"; "SEQUENCE"] (Of "SEQUENCE") [El false 0 "RANAP_RAB_QueuedList" ["raB_QueuedList_ies"] "RANAP_RAB-QueuedList:raB_QueuedList_ies_2" "A_SEQUENCE_OF"] (SpSeq "RANAP_RAB_QueuedList" ("RANAP_RAB_QueuedList", "_asn_ctx") [] 0 0);
  (* src/ranap/RANAP_RAB-ReleaseFailedList.c:123-145 *)
  De "RANAP_RAB_ReleaseFailedList" ["RANAP_RAB_FailedList"; "RANAP_RAB_FailedList"; "RANAP_RAB_FailedList"; "RANAP_RAB_FailedList"] (Of "RANAP_RAB_FailedList") [] (SpNone);
  (* src/ranap/RANAP_RAB-ReleaseItem.c:58-83 *)
  De "RANAP_RAB_ReleaseItem" ["SEQUENCE"; "SEQUENCE"; "SEQUENCE"; "SEQUENCE"] (Of "SEQUENCE") [El false 0 "RANAP_RAB_ReleaseItem" ["rAB_ID"] "RANAP_RAB_ID" "";
    El false 0 "RANAP_RAB_ReleaseItem" ["cause"] "RANAP_Cause" "";
    El true 1 "RANAP_RAB_ReleaseItem" ["iE_Extensions"] "RANAP_ProtocolExtensionContainer" ""] (SpSeq "RANAP_RAB_ReleaseItem" ("RANAP_RAB_ReleaseItem", "_asn_ctx") [2] 1 0);
  (* src/ranap/RANAP_RAB-ReleaseList.c:67-93 *)
  De "RANAP_RAB-ReleaseList:raB_ReleaseList_ies_2" ["SEQUENCE_OF"; "SEQUENCE_OF"; "SEQUENCE_OF"; "SEQUENCE_OF"] (Of "SEQUENCE_OF") [El true 0 "" [] "RANAP_IE" ""] (SpList "RANAP_RAB_ReleaseList__raB_ReleaseList_ies" ("RANAP_RAB_ReleaseList__raB_ReleaseList_ies", "_asn_ctx"));
  (* src/ranap/RANAP_RAB-ReleaseList.c:121-146 *)
  De "RANAP_RAB_ReleaseList" ["SEQUENCE"; "SEQUENCE"; "SEQUENCE"; "SEQUENCE"] (Of "SEQUENCE") [El false 0 "RANAP_RAB_ReleaseList" ["raB_ReleaseList_ies"] "RANAP_RAB-ReleaseList:raB_ReleaseList_ies_2" "A_SEQUENCE_OF"] (SpSeq "RANAP_RAB_ReleaseList" ("RANAP_RAB_ReleaseList", "_asn_ctx") [] 0 0);
  (* src/ranap/RANAP_RAB-ReleaseRequest.c:66-92 *)
  De "RANAP_RAB-ReleaseRequest:raB_ReleaseRequest_ies_2" ["SEQUENCE_OF"; "SEQUENCE_OF"; "SEQUENCE_OF"; "SEQUENCE_OF"] (Of "SEQUENCE_OF") [El true 0 "" [] "RANAP_IE" ""] (SpList "RANAP_RAB_ReleaseRequest__raB_ReleaseRequest_ies" ("RANAP_RAB_ReleaseRequest__raB_ReleaseRequest_ies", "_asn_ctx"));
  (* src/ranap/RANAP_RAB-ReleaseRequest.c:120-145 *)
  De "RANAP_RAB_ReleaseRequest" ["SEQUENCE"; "SEQUENCE"; "SEQUENCE"; "SEQUENCE"] (Of "SEQUENCE") [El false 0 "RANAP_RAB_ReleaseRequest" ["raB_ReleaseRequest_ies"] "RANAP_RAB-ReleaseRequest:raB_ReleaseRequest_ies_2" "A_SEQUENCE_OF"] (SpSeq "RANAP_RAB_ReleaseRequest" ("RANAP_RAB_ReleaseRequest", "_asn_ctx") [] 0 0);
  (* src/ranap/RANAP_RAB-ReleasedItem-IuRelComp.c:68-93 *)
  De "RANAP_RAB_ReleasedItem_IuRelComp" ["SEQUENCE"; "SEQUENCE"; "SEQUENCE"; "SEQUENCE"] (Of "SEQUENCE") [El false 0 "RANAP_RAB_ReleasedItem_IuRelComp" ["rAB_ID"] "RANAP_RAB_ID" "";
    El true 3 "RANAP_RAB_ReleasedItem_IuRelComp" ["dL_GTP_PDU_SequenceNumber"] "RANAP_DL_GTP_PDU_SequenceNumber" "";
    El true 2 "RANAP_RAB_ReleasedItem_IuRelComp" ["uL_GTP_PDU_SequenceNumber"] "RANAP_UL_GTP_PDU_SequenceNumber" "";
    El true 1 "RANAP_RAB_ReleasedItem_IuRelComp" ["iE_Extensions"] "RANAP_ProtocolExtensionContainer" ""] (SpSeq "RANAP_RAB_ReleasedItem_IuRelComp" ("RANAP_RAB_ReleasedItem_IuRelComp", "_asn_ctx") [1; 2; 3] 3 0);
  (* src/ranap/RANAP_RAB-ReleasedItem.c:78-103 *)
  De "RANAP_RAB_ReleasedItem" ["SEQUENCE"; "SEQUENCE"; "SEQUENCE"; "SEQUENCE"] (Of "SEQUENCE") [El false 0 "RANAP_RAB_ReleasedItem" ["rAB_ID"] "RANAP_RAB_ID" "";
    El true 4 "RANAP_RAB_ReleasedItem" ["dl_dataVolumes"] "RANAP_DataVolumeList" "";
    El true 3 "RANAP_RAB_ReleasedItem" ["dL_GTP_PDU_SequenceNumber"] "RANAP_DL_GTP_PDU_SequenceNumber" "";
    El true 2 "RANAP_RAB_ReleasedItem" ["uL_GTP_PDU_SequenceNumber"] "RANAP_UL_GTP_PDU_SequenceNumber" "";
    El true 1 "RANAP_RAB_ReleasedItem" ["iE_Extensions"] "RANAP_ProtocolExtensionContainer" ""] (SpSeq "RANAP_RAB_ReleasedItem" ("RANAP_RAB_ReleasedItem", "_asn_ctx") [1; 2; 3; 4] 4 0);
  (* src/ranap/RANAP_RAB-ReleasedList-IuRelComp.c:66-92 *)
  De "RANAP_RAB-ReleasedList-IuRelComp:raB_ReleasedList_IuRelComp_ies_2" ["SEQUENCE_OF"; "SEQUENCE_OF"; "SEQUENCE_OF"; "SEQUENCE_OF"] (Of "SEQUENCE_OF") [El true 0 "" [] "RANAP_IE" ""] (SpList "RANAP_RAB_ReleasedList_IuRelComp__raB_ReleasedList_IuRelComp_ies" ("RANAP_RAB_ReleasedList_IuRelComp__raB_ReleasedList_IuRelComp_ies", "_asn_ctx"));
  (* src/ranap/RANAP_RAB-ReleasedList-IuRelComp.c:120-145 *)
  De "RANAP_RAB_ReleasedList_IuRelComp" ["SEQUENCE"; "SEQUENCE"; "SEQUENCE"; "SEQUENCE"] (Of "SEQUENCE") [El false 0 "RANAP_RAB_ReleasedList_IuRelComp" ["raB_ReleasedList_IuRelComp_ies"] "RANAP_RAB-ReleasedList-IuRelComp:raB_ReleasedList_IuRelComp_ies_2" "A_SEQUENCE_OF"] (SpSeq "RANAP_RAB_ReleasedList_IuRelComp" ("RANAP_RAB_ReleasedList_IuRelComp", "_asn_ctx") [] 0 0);
  (* src/ranap/RANAP_RAB-ReleasedList.c:66-92 *)
  De "RANAP_RAB-ReleasedList:raB_ReleasedList_ies_2" ["SEQUENCE_OF"; "SEQUENCE_OF"; "SEQUENCE_OF"; "SEQUENCE_OF"] (Of "SEQUENCE_OF") [El true 0 "" [] "RANAP_IE" ""] (SpList "RANAP_RAB_ReleasedList__raB_ReleasedList_ies" ("RANAP_RAB_ReleasedList__raB_ReleasedList_ies", "_asn_ctx"));
  (* src/ranap/RANAP_RAB-ReleasedList.c:120-145 *)
  De "RANAP_RAB_ReleasedList" ["SEQUENCE"; "SEQUENCE"; "SEQUENCE"; "SEQUENCE"] (Of "SEQUENCE") [El false 0 "RANAP_RAB_ReleasedList" ["raB_ReleasedList_ies"] "RANAP_RAB-ReleasedList:raB_ReleasedList_ies_2" "A_SEQUENCE_OF"] (SpSeq "RANAP_RAB_ReleasedList" ("RANAP_RAB_ReleasedList", "_asn_ctx") [] 0 0);
  (* src/ranap/RANAP_RAB-RelocationReleaseItem.c:48-73 *)
  De "RANAP_RAB_RelocationReleaseItem" ["SEQUENCE"; "SEQUENCE"; "SEQUENCE"; "SEQUENCE"] (Of "SEQUENCE") [El false 0 "RANAP_RAB_RelocationReleaseItem" ["rAB_ID"] "RANAP_RAB_ID" "";
    El true 1 "RANAP_RAB_RelocationReleaseItem" ["iE_Extensions"] "RANAP_ProtocolExtensionContainer" ""] (SpSeq "RANAP_RAB_RelocationReleaseItem" ("RANAP_RAB_RelocationReleaseItem", "_asn_ctx") [1] 1 0);
  (* src/ranap/RANAP_RAB-RelocationReleaseList.c:66-92 *)
  De "RANAP_RAB-RelocationReleaseList:raB_RelocationReleaseList_ies_2" ["SEQUENCE_OF"; "SEQUENCE_OF"; "SEQUENCE_OF"; "SEQUENCE_OF"] (Of "SEQUENCE_OF") [El true 0 "" [] "RANAP_IE" ""] (SpList "RANAP_RAB_RelocationReleaseList__raB_RelocationReleaseList_ies" ("RANAP_RAB_RelocationReleaseList__raB_RelocationReleaseList_ies", "_asn_ctx"));
  (* src/ranap/RANAP_RAB-RelocationReleaseList.c:120-145 *)
  De "RANAP_RAB_RelocationReleaseList" ["SEQUENCE"; "SEQUENCE"; "SEQUENCE"; "SEQUENCE"] (Of "SEQUENCE") [El false 0 "RANAP_RAB_RelocationReleaseList" ["raB_RelocationReleaseList_ies"] "RANAP_RAB-RelocationReleaseList:raB_RelocationReleaseList_ies_2" "A_SEQUENCE_OF"] (SpSeq "RANAP_RAB_RelocationReleaseList" ("RANAP_RAB_RelocationReleaseList", "_asn_ctx") [] 0 0);
  (* src/ranap/RANAP_RAB-SetupItem-EnhRelocInfoReq.c:138-163 *)
  De "RANAP_RAB_SetupItem_EnhRelocInfoReq" ["SEQUENCE"; "SEQUENCE"; "SEQUENCE"; "SEQUENCE"] (Of "SEQUENCE") [El false 0 "RANAP_RAB_SetupItem_EnhRelocInfoReq" ["rAB_ID"] "RANAP_RAB_ID" "";
    El false 0 "RANAP_RAB_SetupItem_EnhRelocInfoReq" ["cN_DomainIndicator"] "RANAP_CN_DomainIndicator" "";
    El false 0 "RANAP_RAB_SetupItem_EnhRelocInfoReq" ["rAB_Parameters"] "RANAP_RAB_Parameters" "";
    El true 2 "RANAP_RAB_SetupItem_EnhRelocInfoReq" ["dataVolumeReportingIndication"] "RANAP_DataVolumeReportingIndication" "";
    El true 1 "RANAP_RAB_SetupItem_EnhRelocInfoReq" ["pDP_TypeInformation"] "RANAP_PDP_TypeInformation" "";
    El false 0 "RANAP_RAB_SetupItem_EnhRelocInfoReq" ["userPlaneInformation"] "RANAP_UserPlaneInformation" "";
    El true 5 "RANAP_RAB_SetupItem_EnhRelocInfoReq" ["dataForwardingInformation"] "RANAP_TNLInformationEnhRelInfoReq" "";
    El true 4 "RANAP_RAB_SetupItem_EnhRelocInfoReq" ["sourceSideIuULTNLInfo"] "RANAP_TNLInformationEnhRelInfoReq" "";
    El true 3 "RANAP_RAB_SetupItem_EnhRelocInfoReq" ["service_Handover"] "RANAP_Service_Handover" "";
    El true 2 "RANAP_RAB_SetupItem_EnhRelocInfoReq" ["alt_RAB_Parameters"] "RANAP_Alt_RAB_Parameters" "";
    El true 1 "RANAP_RAB_SetupItem_EnhRelocInfoReq" ["iE_Extensions"] "RANAP_ProtocolExtensionContainer" ""] (SpSeq "RANAP_RAB_SetupItem_EnhRelocInfoReq" ("RANAP_RAB_SetupItem_EnhRelocInfoReq", "_asn_ctx") [3; 4; 6; 7; 8; 9; 10] 7 0);
  (* src/ranap/RANAP_RAB-SetupItem-EnhRelocInfoRes.c:78-103 *)
  De "RANAP_RAB_SetupItem_EnhRelocInfoRes" ["SEQUENCE"; "SEQUENCE"; "SEQUENCE"; "SEQUENCE"] (Of "SEQUENCE") [El false 0 "RANAP_RAB_SetupItem_EnhRelocInfoRes" ["cN_DomainIndicator"] "RANAP_CN_DomainIndicator" "";
    El false 0 "RANAP_RAB_SetupItem_EnhRelocInfoRes" ["rAB_ID"] "RANAP_RAB_ID" "";
    El true 3 "RANAP_RAB_SetupItem_EnhRelocInfoRes" ["dataForwardingInformation"] "RANAP_TNLInformationEnhRelInfoRes" "";
    El true 2 "RANAP_RAB_SetupItem_EnhRelocInfoRes" ["ass_RAB_Parameters"] "RANAP_Ass_RAB_Parameters" "";
    El true 1 "RANAP_RAB_SetupItem_EnhRelocInfoRes" ["iE_Extensions"] "RANAP_ProtocolExtensionContainer" ""] (SpSeq "RANAP_RAB_SetupItem_EnhRelocInfoRes" ("RANAP_RAB_SetupItem_EnhRelocInfoRes", "_asn_ctx") [2; 3; 4] 3 0);
  (* src/ranap/RANAP_RAB-SetupItem-EnhancedRelocCompleteReq.c:78-103 *)
  De "RANAP_RAB_SetupItem_EnhancedRelocCompleteReq" ["SEQUENCE"; "SEQUENCE"; "SEQUENCE"; "SEQUENCE"] (Of "SEQUENCE") [El false 0 "RANAP_RAB_SetupItem_EnhancedRelocCompleteReq" ["rAB_ID"] "RANAP_RAB_ID" "";
    El true 4 "RANAP_RAB_SetupItem_EnhancedRelocCompleteReq" ["transportLayerAddressReq1"] "RANAP_TransportLayerAddress" "";
    El true 3 "RANAP_RAB_SetupItem_EnhancedRelocCompleteReq" ["iuTransportAssociationReq1"] "RANAP_IuTransportAssociation" "";
    El true 2 "RANAP_RAB_SetupItem_EnhancedRelocCompleteReq" ["ass_RAB_Parameters"] "RANAP_Ass_RAB_Parameters" "";
    El true 1 "RANAP_RAB_SetupItem_EnhancedRelocCompleteReq" ["iE_Extensions"] "RANAP_ProtocolExtensionContainer" ""] (SpSeq "RANAP_RAB_SetupItem_EnhancedRelocCompleteReq" ("RANAP_RAB_SetupItem_EnhancedRelocCompleteReq", "_asn_ctx") [1; 2; 3; 4] 4 0);
  (* src/ranap/RANAP_RAB-SetupItem-EnhancedRelocCompleteRes.c:98-123 *)
  De "RANAP_RAB_SetupItem_EnhancedRelocCompleteRes" ["SEQUENCE"; "SEQUENCE"; "SEQUENCE"; "SEQUENCE"] (Of "SEQUENCE") [El false 0 "RANAP_RAB_SetupItem_EnhancedRelocCompleteRes" ["rAB_ID"] "RANAP_RAB_ID" "";
    El true 1 "RANAP_RAB_SetupItem_EnhancedRelocCompleteRes" ["rAB_Parameters"] "RANAP_RAB_Parameters" "";
    El false 0 "RANAP_RAB_SetupItem_EnhancedRelocCompleteRes" ["userPlaneInformation"] "RANAP_UserPlaneInformation" "";
    El true 4 "RANAP_RAB_SetupItem_EnhancedRelocCompleteRes" ["transportLayerAddressRes1"] "RANAP_TransportLayerAddress" "";
    El true 3 "RANAP_RAB_SetupItem_EnhancedRelocCompleteRes" ["iuTransportAssociationRes1"] "RANAP_IuTransportAssociation" "";
    El true 2 "RANAP_RAB_SetupItem_EnhancedRelocCompleteRes" ["rab2beReleasedList"] "RANAP_RAB_ToBeReleasedList_EnhancedRelocCompleteRes" "";
    El true 1 "RANAP_RAB_SetupItem_EnhancedRelocCompleteRes" ["iE_Extensions"] "RANAP_ProtocolExtensionContainer" ""] (SpSeq "RANAP_RAB_SetupItem_EnhancedRelocCompleteRes" ("RANAP_RAB_SetupItem_EnhancedRelocCompleteRes", "_asn_ctx") [1; 3; 4; 5; 6] 5 0);
  (* src/ranap/RANAP_RAB-SetupItem-RelocReq.c:128-153 *)
  De "RANAP_RAB_SetupItem_RelocReq" ["SEQUENCE"; "SEQUENCE"; "SEQUENCE"; "SEQUENCE"] (Of "SEQUENCE") [El false 0 "RANAP_RAB_SetupItem_RelocReq" ["rAB_ID"] "RANAP_RAB_ID" "";
    El true 1 "RANAP_RAB_SetupItem_RelocReq" ["nAS_SynchronisationIndicator"] "RANAP_NAS_SynchronisationIndicator" "";
    El false 0 "RANAP_RAB_SetupItem_RelocReq" ["rAB_Parameters"] "RANAP_RAB_Parameters" "";
    El true 2 "RANAP_RAB_SetupItem_RelocReq" ["dataVolumeReportingIndication"] "RANAP_DataVolumeReportingIndication" "";
    El true 1 "RANAP_RAB_SetupItem_RelocReq" ["pDP_TypeInformation"] "RANAP_PDP_TypeInformation" "";
    El false 0 "RANAP_RAB_SetupItem_RelocReq" ["userPlaneInformation"] "RANAP_UserPlaneInformation" "";
    El false 0 "RANAP_RAB_SetupItem_RelocReq" ["transportLayerAddress"] "RANAP_TransportLayerAddress" "";
    El false 0 "RANAP_RAB_SetupItem_RelocReq" ["iuTransportAssociation"] "RANAP_IuTransportAssociation" "";
    El true 2 "RANAP_RAB_SetupItem_RelocReq" ["service_Handover"] "RANAP_Service_Handover" "";
    El true 1 "RANAP_RAB_SetupItem_RelocReq" ["iE_Extensions"] "RANAP_ProtocolExtensionContainer" ""] (SpSeq "RANAP_RAB_SetupItem_RelocReq" ("RANAP_RAB_SetupItem_RelocReq", "_asn_ctx") [1; 3; 4; 8; 9] 5 0);
  (* src/ranap/RANAP_RAB-SetupItem-RelocReqAck.c:68-93 *)
  De "RANAP_RAB_SetupItem_RelocReqAck" ["SEQUENCE"; "SEQUENCE"; "SEQUENCE"; "SEQUENCE"] (Of "SEQUENCE") [El false 0 "RANAP_RAB_SetupItem_RelocReqAck" ["rAB_ID"] "RANAP_RAB_ID" "";
    El true 3 "RANAP_RAB_SetupItem_RelocReqAck" ["transportLayerAddress"] "RANAP_TransportLayerAddress" "";
    El true 2 "RANAP_RAB_SetupItem_RelocReqAck" ["iuTransportAssociation"] "RANAP_IuTransportAssociation" "";
    El true 1 "RANAP_RAB_SetupItem_RelocReqAck" ["iE_Extensions"] "RANAP_ProtocolExtensionContainer" ""] (SpSeq "RANAP_RAB_SetupItem_RelocReqAck" ("RANAP_RAB_SetupItem_RelocReqAck", "_asn_ctx") [1; 2; 3] 3 0);
  (* src/ranap/RANAP_RAB-SetupList-EnhRelocInfoReq.c:66-92 *)
  De "RANAP_RAB-SetupList-EnhRelocInfoReq:raB_SetupList_EnhRelocInfoReq_ies_2" ["SEQUENCE_OF"; "SEQUENCE_OF"; "SEQUENCE_OF"; "SEQUENCE_OF"] (Of "SEQUENCE_OF") [El true 0 "" [] "RANAP_IE" ""] (SpList "RANAP_RAB_SetupList_EnhRelocInfoReq__raB_SetupList_EnhRelocInfoReq_ies" ("RANAP_RAB_SetupList_EnhRelocInfoReq__raB_SetupList_EnhRelocInfoReq_ies", "_asn_ctx"));
  (* src/ranap/RANAP_RAB-SetupList-EnhRelocInfoReq.c:120-145 *)
  De "RANAP_RAB_SetupList_EnhRelocInfoReq" ["SEQUENCE"; "SEQUENCE"; "SEQUENCE"; "SEQUENCE"] (Of "SEQUENCE") [El false 0 "RANAP_RAB_SetupList_EnhRelocInfoReq" ["raB_SetupList_EnhRelocInfoReq_ies"] "RANAP_RAB-SetupList-EnhRelocInfoReq:raB_SetupList_EnhRelocInfoReq_ies_2" "A_SEQUENCE_OF"] (SpSeq "RANAP_RAB_SetupList_EnhRelocInfoReq" ("RANAP_RAB_SetupList_EnhRelocInfoReq", "_asn_ctx") [] 0 0);
  (* src/ranap/RANAP_RAB-SetupList-EnhRelocInfoRes.c:66-92 *)
  De "RANAP_RAB-SetupList-EnhRelocInfoRes:raB_SetupList_EnhRelocInfoRes_ies_2" ["SEQUENCE_OF"; "SEQUENCE_OF"; "SEQUENCE_OF"; "SEQUENCE_OF"] (Of "SEQUENCE_OF") [El true 0 "" [] "RANAP_IE" ""] (SpList "RANAP_RAB_SetupList_EnhRelocInfoRes__raB_SetupList_EnhRelocInfoRes_ies" ("RANAP_RAB_SetupList_EnhRelocInfoRes__raB_SetupList_EnhRelocInfoRes_ies", "_asn_ctx"));
  (* src/ranap/RANAP_RAB-SetupList-EnhRelocInfoRes.c:120-145 *)
  De "RANAP_RAB_SetupList_EnhRelocInfoRes" ["SEQUENCE"; "SEQUENCE"; "SEQUENCE"; "SEQUENCE"] (Of "SEQUENCE") [El false 0 "RANAP_RAB_SetupList_EnhRelocInfoRes" ["raB_SetupList_EnhRelocInfoRes_ies"] "RANAP_RAB-SetupList-EnhRelocInfoRes:raB_SetupList_EnhRelocInfoRes_ies_2" "A_SEQUENCE_OF"] (SpSeq "RANAP_RAB_SetupList_EnhRelocInfoRes" ("RANAP_RAB_SetupList_EnhRelocInfoRes", "_asn_ctx") [] 0 0);
  (* src/ranap/RANAP_RAB-SetupList-EnhancedRelocCompleteReq.c:66-92 *)
  De "RANAP_RAB-SetupList-EnhancedRelocCompleteReq:raB_SetupList_EnhancedRelocCompleteReq_ies_2" ["SEQUENCE_OF"; "SEQUENCE_OF"; "SEQUENCE_OF"; "SEQUENCE_OF"] (Of "SEQUENCE_OF") [El true 0 "" [] "RANAP_IE" ""] (SpList "RANAP_RAB_SetupList_EnhancedRelocCompleteReq__raB_SetupList_EnhancedRelocCompleteReq_ies" ("RANAP_RAB_SetupList_EnhancedRelocCompleteReq__raB_SetupList_EnhancedRelocCompleteReq_ies", "_asn_ctx"));
  (* src/ranap/RANAP_RAB-SetupList-EnhancedRelocCompleteReq.c:120-145 *)
  De "RANAP_RAB_SetupList_EnhancedRelocCompleteReq" ["SEQUENCE"; "SEQUENCE"; "SEQUENCE"; "SEQUENCE"] (Of "SEQUENCE") [El false 0 "RANAP_RAB_SetupList_EnhancedRelocCompleteReq" ["raB_SetupList_EnhancedRelocCompleteReq_ies"] "RANAP_RAB-SetupList-EnhancedRelocCompleteReq:raB_SetupList_EnhancedRelocCompleteReq_ies_2" "A_SEQUENCE_OF"] (SpSeq "RANAP_RAB_SetupList_EnhancedRelocCompleteReq" ("RANAP_RAB_SetupList_EnhancedRelocCompleteReq", "_asn_ctx") [] 0 0);
  (* src/ranap/RANAP_RAB-SetupList-EnhancedRelocCompleteRes.c:66-92 *)
  De "RANAP_RAB-SetupList-EnhancedRelocCompleteRes:raB_SetupList_EnhancedRelocCompleteRes_ies_2" ["SEQUENCE_OF"; "SEQUENCE_OF"; "SEQUENCE_OF"; "SEQUENCE_OF"] (Of "SEQUENCE_OF") [El true 0 "" [] "RANAP_IE" ""] (SpList "RANAP_RAB_SetupList_EnhancedRelocCompleteRes__raB_SetupList_EnhancedRelocCompleteRes_ies" ("RANAP_RAB_SetupList_EnhancedRelocCompleteRes__raB_SetupList_EnhancedRelocCompleteRes_ies", "_asn_ctx"));
  (* src/ranap/RANAP_RAB-SetupList-EnhancedRelocCompleteRes.c:120-145 *)
  De "RANAP_RAB_SetupList_EnhancedRelocCompleteRes" ["SEQUENCE"; "SEQUENCE"; "SEQUENCE"; "SEQUENCE"] (Of "SEQUENCE") [El false 0 "RANAP_RAB_SetupList_EnhancedRelocCompleteRes" ["raB_SetupList_EnhancedRelocCompleteRes_ies"] "RANAP_RAB-SetupList-EnhancedRelocCompleteRes:raB_SetupList_EnhancedRelocCompleteRes_ies_2" "A_SEQUENCE_OF"] (SpSeq "RANAP_RAB_SetupList_EnhancedRelocCompleteRes" ("RANAP_RAB_SetupList_EnhancedRelocCompleteRes", "_asn_ctx") [] 0 0);
  (* src/ranap/RANAP_RAB-SetupList-RelocReq.c:66-92 *)
  De "RANAP_RAB-SetupList-RelocReq:raB_SetupList_RelocReq_ies_2" ["SEQUENCE_OF"; "SEQUENCE_OF"; "SEQUENCE_OF"; "SEQUENCE_OF"] (Of "SEQUENCE_OF") [El true 0 "" [] "RANAP_IE" ""] (SpList "RANAP_RAB_SetupList_RelocReq__raB_SetupList_RelocReq_ies" ("RANAP_RAB_SetupList_RelocReq__raB_SetupList_RelocReq_ies", "_asn_ctx"));
  (* src/ranap/RANAP_RAB-SetupList-RelocReq.c:120-145 *)
  De "RANAP_RAB_SetupList_RelocReq" ["SEQUENCE"; "SEQUENCE"; "SEQUENCE"; "SEQUENCE"] (Of "SEQUENCE") [El false 0 "RANAP_RAB_SetupList_RelocReq" ["raB_SetupList_RelocReq_ies"] "RANAP_RAB-SetupList-RelocReq:raB_SetupList_RelocReq_ies_2" "A_SEQUENCE_OF"] (SpSeq "RANAP_RAB_SetupList_RelocReq" ("RANAP_RAB_SetupList_RelocReq", "_asn_ctx") [] 0 0);
  (* src/ranap/RANAP_RAB-SetupList-RelocReqAck.c:66-92 *)
  De "RANAP_RAB-SetupList-RelocReqAck:raB_SetupList_RelocReqAck_ies_2" ["SEQUENCE_OF"; "SEQUENCE_OF"; "SEQUENCE_OF"; "SEQUENCE_OF"] (Of "SEQUENCE_OF") [El true 0 "" [] "RANAP_IE" ""] (SpList "RANAP_RAB_SetupList_RelocReqAck__raB_SetupList_RelocReqAck_ies" ("RANAP_RAB_SetupList_RelocReqAck__raB_SetupList_RelocReqAck_ies", "_asn_ctx"));
  (* src/ranap/RANAP_RAB-SetupList-RelocReqAck.c:120-145 *)
  De "RANAP_RAB_SetupList_RelocReqAck" ["SEQUENCE"; "SEQUENCE"; "SEQUENCE"; "SEQUENCE"] (Of "SEQUENCE") [El false 0 "RANAP_RAB_SetupList_RelocReqAck" ["raB_SetupList_RelocReqAck_ies"] "RANAP_RAB-SetupList-RelocReqAck:raB_SetupList_RelocReqAck_ies_2" "A_SEQUENCE_OF"] (SpSeq "RANAP_RAB_SetupList_RelocReqAck" ("RANAP_RAB_SetupList_RelocReqAck", "_asn_ctx") [] 0 0);
  (* src/ranap/RANAP_RAB-SetupOrModifiedItem.c:78-103 *)
  De "RANAP_RAB_SetupOrModifiedItem" ["SEQUENCE"; "SEQUENCE"; "SEQUENCE"; "SEQUENCE"] (Of "SEQUENCE") [El false 0 "RANAP_RAB_SetupOrModifiedItem" ["rAB_ID"] "RANAP_RAB_ID" "";
    El true 4 "RANAP_RAB_SetupOrModifiedItem" ["transportLayerAddress"] "RANAP_TransportLayerAddress" "";
    El true 3 "RANAP_RAB_SetupOrModifiedItem" ["iuTransportAssociation"] "RANAP_IuTransportAssociation" "";
    El true 2 "RANAP_RAB_SetupOrModifiedItem" ["dl_dataVolumes"] "RANAP_DataVolumeList" "";
    El true 1 "RANAP_RAB_SetupOrModifiedItem" ["iE_Extensions"] "RANAP_ProtocolExtensionContainer" ""] (SpSeq "RANAP_RAB_SetupOrModifiedItem" ("RANAP_RAB_SetupOrModifiedItem", "_asn_ctx") [1; 2; 3; 4] 4 0);
  (* src/ranap/RANAP_RAB-SetupOrModifiedList.c:66-92 *)
  De "RANAP_RAB-SetupOrModifiedList:raB_SetupOrModifiedList_ies_2" ["SEQUENCE_OF"; "SEQUENCE_OF"; "SEQUENCE_OF"; "SEQUENCE_OF"] (Of "SEQUENCE_OF") [El true 0 "" [] "RANAP_IE" ""] (SpList "RANAP_RAB_SetupOrModifiedList__raB_SetupOrModifiedList_ies" ("RANAP_RAB_SetupOrModifiedList__raB_SetupOrModifiedList_ies", "_asn_ctx"));
  (* src/ranap/RANAP_RAB-SetupOrModifiedList.c:120-145 *)
  De "RANAP_RAB_SetupOrModifiedList" ["SEQUENCE"; "SEQUENCE"; "SEQUENCE"; "SEQUENCE"] (Of "SEQUENCE") [El false 0 "RANAP_RAB_SetupOrModifiedList" ["raB_SetupOrModifiedList_ies"] "RANAP_RAB-SetupOrModifiedList:raB_SetupOrModifiedList_ies_2" "A_SEQUENCE_OF"] (SpSeq "RANAP_RAB_SetupOrModifiedList" ("RANAP_RAB_SetupOrModifiedList", "_asn_ctx") [] 0 0);
  (* src/ranap/RANAP_RAB-SetupOrModifyItemFirst.c:98-123 *)
  De "RANAP_RAB_SetupOrModifyItemFirst" ["SEQUENCE"; "SEQUENCE"; "SEQUENCE"; "SEQUENCE"] (Of "SEQUENCE") [El false 0 "RANAP_RAB_SetupOrModifyItemFirst" ["rAB_ID"] "RANAP_RAB_ID" "";
    El true 6 "RANAP_RAB_SetupOrModifyItemFirst" ["nAS_SynchronisationIndicator"] "RANAP_NAS_SynchronisationIndicator" "";
    El true 5 "RANAP_RAB_SetupOrModifyItemFirst" ["rAB_Parameters"] "RANAP_RAB_Parameters" "";
    El true 4 "RANAP_RAB_SetupOrModifyItemFirst" ["userPlaneInformation"] "RANAP_UserPlaneInformation" "";
    El true 3 "RANAP_RAB_SetupOrModifyItemFirst" ["transportLayerInformation"] "RANAP_TransportLayerInformation" "";
    El true 2 "RANAP_RAB_SetupOrModifyItemFirst" ["service_Handover"] "RANAP_Service_Handover" "";
    El true 1 "RANAP_RAB_SetupOrModifyItemFirst" ["iE_Extensions"] "RANAP_ProtocolExtensionContainer" ""] (SpSeq "RANAP_RAB_SetupOrModifyItemFirst" ("RANAP_RAB_SetupOrModifyItemFirst", "_asn_ctx") [1; 2; 3; 4; 5; 6] 6 0);
  (* src/ranap/RANAP_RAB-SetupOrModifyItemSecond.c:98-123 *)
  De "RANAP_RAB_SetupOrModifyItemSecond" ["SEQUENCE"; "SEQUENCE"; "SEQUENCE"; "SEQUENCE"] (Of "SEQUENCE") [El true 7 "RANAP_RAB_SetupOrModifyItemSecond" ["pDP_TypeInformation"] "RANAP_PDP_TypeInformation" "";
    El true 6 "RANAP_RAB_SetupOrModifyItemSecond" ["dataVolumeReportingIndication"] "RANAP_DataVolumeReportingIndication" "";
    El true 5 "RANAP_RAB_SetupOrModifyItemSecond" ["dl_GTP_PDU_SequenceNumber"] "RANAP_DL_GTP_PDU_SequenceNumber" "";
    El true 4 "RANAP_RAB_SetupOrModifyItemSecond" ["ul_GTP_PDU_SequenceNumber"] "RANAP_UL_GTP_PDU_SequenceNumber" "";
    El true 3 "RANAP_RAB_SetupOrModifyItemSecond" ["dl_N_PDU_SequenceNumber"] "RANAP_DL_N_PDU_SequenceNumber" "";
    El true 2 "RANAP_RAB_SetupOrModifyItemSecond" ["ul_N_PDU_SequenceNumber"] "RANAP_UL_N_PDU_SequenceNumber" "";
    El true 1 "RANAP_RAB_SetupOrModifyItemSecond" ["iE_Extensions"] "RANAP_ProtocolExtensionContainer" ""] (SpSeq "RANAP_RAB_SetupOrModifyItemSecond" ("RANAP_RAB_SetupOrModifyItemSecond", "_asn_ctx") [0; 1; 2; 3; 4; 5; 6] 7 0);
  (* src/ranap/RANAP_RAB-SetupOrModifyList.c:136-158 *)
  De "RANAP_RAB_SetupOrModifyList" ["RANAP_RAB_IE_ContainerPairList"; "RANAP_RAB_IE_ContainerPairList"; "RANAP_RAB_IE_ContainerPairList"; "RANAP_RAB_IE_ContainerPairList"] (Of "RANAP_RAB_IE_ContainerPairList") [] (SpNone);
  (* src/ranap/RANAP_RAB-SubflowCombinationBitRate.c:141-165 *)
  De "RANAP_RAB_SubflowCombinationBitRate" ["NativeInteger"; "NativeInteger"; "NativeInteger"; "NativeInteger"] (Cast "long") [] (SpNone);
  (* src/ranap/RANAP_RAB-ToBeReleasedItem-EnhancedRelocCompleteRes.c:58-83 *)
  De "RANAP_RAB_ToBeReleasedItem_EnhancedRelocCompleteRes" ["SEQUENCE"; "SEQUENCE"; "SEQUENCE"; "SEQUENCE"] (Of "SEQUENCE") [El false 0 "RANAP_RAB_ToBeReleasedItem_EnhancedRelocCompleteRes" ["rAB_ID"] "RANAP_RAB_ID" "";
    El false 0 "RANAP_RAB_ToBeReleasedItem_EnhancedRelocCompleteRes" ["cause"] "RANAP_Cause" "";
    El true 1 "RANAP_RAB_ToBeReleasedItem_EnhancedRelocCompleteRes" ["iE_Extensions"] "RANAP_ProtocolExtensionContainer" ""] (SpSeq "RANAP_RAB_ToBeReleasedItem_EnhancedRelocCompleteRes" ("RANAP_RAB_ToBeReleasedItem_EnhancedRelocCompleteRes", "_asn_ctx") [2] 1 0);
  (* src/ranap/RANAP_RAB-ToBeReleasedList-EnhancedRelocCompleteRes.c:66-92 *)
  De "RANAP_RAB-ToBeReleasedList-EnhancedRelocCompleteRes:raB_ToBeReleasedList_EnhancedRelocCompleteRes_ies_2" ["SEQUENCE_OF"; "SEQUENCE_OF"; "SEQUENCE_OF"; "SEQUENCE_OF"] (Of "SEQUENCE_OF") [El true 0 "" [] "RANAP_IE" ""] (SpList "RANAP_RAB_ToBeReleasedList_EnhancedRelocCompleteRes__raB_ToBeReleasedList_EnhancedRelocCompleteRes_ies" ("RANAP_RAB_ToBeReleasedList_EnhancedRelocCompleteRes__raB_ToBeReleasedList_EnhancedRelocCompleteRes_ies", "_asn_ctx"));
  (* src/ranap/RANAP_RAB-ToBeReleasedList-EnhancedRelocCompleteRes.c:120-145 *)
  De "RANAP_RAB_ToBeReleasedList_EnhancedRelocCompleteRes" ["SEQUENCE"; "SEQUENCE"; "SEQUENCE"; "SEQUENCE"] (Of "SEQUENCE") [El false 0 "RANAP_RAB_ToBeReleasedList_EnhancedRelocCompleteRes" ["raB_ToBeReleasedList_EnhancedRelocCompleteRes_ies"] "RANAP_RAB-ToBeReleasedList-EnhancedRelocCompleteRes:raB_ToBeReleasedList_EnhancedRelocCompleteRes_ies_2" "A_SEQUENCE_OF"] (SpSeq "RANAP_RAB_ToBeReleasedList_EnhancedRelocCompleteRes" ("RANAP_RAB_ToBeReleasedList_EnhancedRelocCompleteRes", "_asn_ctx") [] 0 0);
  (* src/ranap/RANAP_RAB-TrCH-Mapping.c:34-59 *)
  De "RANAP_RAB_TrCH_Mapping" ["SEQUENCE_OF"; "SEQUENCE_OF"; "SEQUENCE_OF"; "SEQUENCE_OF"] (Of "SEQUENCE_OF") [El true 0 "" [] "RANAP_RAB_TrCH_MappingItem" ""] (SpList "RANAP_RAB_TrCH_Mapping" ("RANAP_RAB_TrCH_Mapping", "_asn_ctx"));
  (* src/ranap/RANAP_RAB-TrCH-MappingItem.c:58-83 *)
  De "RANAP_RAB_TrCH_MappingItem" ["SEQUENCE"; "SEQUENCE"; "SEQUENCE"; "SEQUENCE"] (Of "SEQUENCE") [El false 0 "RANAP_RAB_TrCH_MappingItem" ["rAB_ID"] "RANAP_RAB_ID" "";
    El false 0 "RANAP_RAB_TrCH_MappingItem" ["trCH_ID_List"] "RANAP_TrCH_ID_List" "";
    El true 1 "RANAP_RAB_TrCH_MappingItem" ["iE_Extensions"] "RANAP_IE_Extensions" ""] (SpSeq "RANAP_RAB_TrCH_MappingItem" ("RANAP_RAB_TrCH_MappingItem", "_asn_ctx") [2] 1 0);
  (* src/ranap/RANAP_RABDataVolumeReport-Value.c:58-83 *)
  De "RANAP_RABDataVolumeReport_Value" ["SEQUENCE"; "SEQUENCE"; "SEQUENCE"; "SEQUENCE"] (Of "SEQUENCE") [El false 0 "RANAP_RABDataVolumeReport_Value" ["dl_UnsuccessfullyTransmittedDataVolume"] "RANAP_UnsuccessfullyTransmittedDataVolume" "";
    El true 2 "RANAP_RABDataVolumeReport_Value" ["dataVolumeReference"] "RANAP_DataVolumeReference" "";
    El true 1 "RANAP_RABDataVolumeReport_Value" ["iE_Extensions"] "RANAP_IE_Extensions" ""] (SpSeq "RANAP_RABDataVolumeReport_Value" ("RANAP_RABDataVolumeReport_Value", "_asn_ctx") [1; 2] 2 0);
  (* src/ranap/RANAP_RABDataVolumeReport.c:34-59 *)
  De "RANAP_RABDataVolumeReport" ["SEQUENCE_OF"; "SEQUENCE_OF"; "SEQUENCE_OF"; "SEQUENCE_OF"] (Of "SEQUENCE_OF") [El true 0 "" [] "RANAP_RABDataVolumeReport_Value" ""] (SpList "RANAP_RABDataVolumeReport" ("RANAP_RABDataVolumeReport", "_asn_ctx"));
  (* src/ranap/RANAP_RABParametersList-Value.c:78-103 *)
  De "RANAP_RABParametersList_Value" ["SEQUENCE"; "SEQUENCE"; "SEQUENCE"; "SEQUENCE"] (Of "SEQUENCE") [El false 0 "RANAP_RABParametersList_Value" ["rab_Id"] "RANAP_RAB_ID" "";
    El false 0 "RANAP_RABParametersList_Value" ["cn_domain"] "RANAP_CN_DomainIndicator" "";
    El true 3 "RANAP_RABParametersList_Value" ["rabDataVolumeReport"] "RANAP_RABDataVolumeReport" "";
    El true 2 "RANAP_RABParametersList_Value" ["upInformation"] "RANAP_UPInformation" "";
    El true 1 "RANAP_RABParametersList_Value" ["iE_Extensions"] "RANAP_IE_Extensions" ""] (SpSeq "RANAP_RABParametersList_Value" ("RANAP_RABParametersList_Value", "_asn_ctx") [2; 3; 4] 3 0);
  (* src/ranap/RANAP_RABParametersList.c:34-59 *)
  De "RANAP_RABParametersList" ["SEQUENCE_OF"; "SEQUENCE_OF"; "SEQUENCE_OF"; "SEQUENCE_OF"] (Of "SEQUENCE_OF") [El true 0 "" [] "RANAP_RABParametersList_Value" ""] (SpList "RANAP_RABParametersList" ("RANAP_RABParametersList", "_asn_ctx"));
  (* src/ranap/RANAP_RABased.c:48-73 *)
  De "RANAP_RABased" ["SEQUENCE"; "SEQUENCE"; "SEQUENCE"; "SEQUENCE"] (Of "SEQUENCE") [El false 0 "RANAP_RABased" ["raiList"] "RANAP_RAI_List" "";
    El true 1 "RANAP_RABased" ["iE_Extensions"] "RANAP_IE_Extensions" ""] (SpSeq "RANAP_RABased" ("RANAP_RABased", "_asn_ctx") [1] 1 0);
  (* src/ranap/RANAP_RABs-ContextFailedtoTransferItem.c:58-83 *)
  De "RANAP_RABs_ContextFailedtoTransferItem" ["SEQUENCE"; "SEQUENCE"; "SEQUENCE"; "SEQUENCE"] (Of "SEQUENCE") [El false 0 "RANAP_RABs_ContextFailedtoTransferItem" ["rAB_ID"] "RANAP_RAB_ID" "";
    El false 0 "RANAP_RABs_ContextFailedtoTransferItem" ["cause"] "RANAP_Cause" "";
    El true 1 "RANAP_RABs_ContextFailedtoTransferItem" ["iE_Extensions"] "RANAP_ProtocolExtensionContainer" ""] (SpSeq "RANAP_RABs_ContextFailedtoTransferItem" ("RANAP_RABs_ContextFailedtoTransferItem", "_asn_ctx") [2] 1 0);
  (* src/ranap/RANAP_RABs-ContextFailedtoTransferList.c:66-92 *)
  De "RANAP_RABs-ContextFailedtoTransferList:raBs_ContextFailedtoTransferList_ies_2" ["SEQUENCE_OF"; "SEQUENCE_OF"; "SEQUENCE_OF"; "SEQUENCE_OF"] (Of "SEQUENCE_OF") [El true 0 "" [] "RANAP_IE" ""] (SpList "RANAP_RABs_ContextFailedtoTransferList__raBs_ContextFailedtoTransferList_ies" ("RANAP_RABs_ContextFailedtoTransferList__raBs_ContextFailedtoTransferList_ies", "_asn_ctx"));
  (* src/ranap/RANAP_RABs-ContextFailedtoTransferList.c:120-145 *)
  De "RANAP_RABs_ContextFailedtoTransferList" ["SEQUENCE"; "SEQUENCE"; "SEQUENCE"; "SEQUENCE"] (Of "SEQUENCE") [El false 0 "RANAP_RABs_ContextFailedtoTransferList" ["raBs_ContextFailedtoTransferList_ies"] "RANAP_RABs-ContextFailedtoTransferList:raBs_ContextFailedtoTransferList_ies_2" "A_SEQUENCE_OF"] (SpSeq "RANAP_RABs_ContextFailedtoTransferList" ("RANAP_RABs_ContextFailedtoTransferList", "_asn_ctx") [] 0 0);
  (* src/ranap/RANAP_RABs-failed-to-reportItem.c:58-83 *)
  De "RANAP_RABs_failed_to_reportItem" ["SEQUENCE"; "SEQUENCE"; "SEQUENCE"; "SEQUENCE"] (Of "SEQUENCE") [El false 0 "RANAP_RABs_failed_to_reportItem" ["rAB_ID"] "RANAP_RAB_ID" "";
    El false 0 "RANAP_RABs_failed_to_reportItem" ["cause"] "RANAP_Cause" "";
    El true 1 "RANAP_RABs_failed_to_reportItem" ["iE_Extensions"] "RANAP_ProtocolExtensionContainer" ""] (SpSeq "RANAP_RABs_failed_to_reportItem" ("RANAP_RABs_failed_to_reportItem", "_asn_ctx") [2] 1 0);
  (* src/ranap/RANAP_RABs-failed-to-reportList.c:66-92 *)
  De "RANAP_RABs-failed-to-reportList:raBs_failed_to_reportList_ies_2" ["SEQUENCE_OF"; "SEQUENCE_OF"; "SEQUENCE_OF"; "SEQUENCE_OF"] (Of "SEQUENCE_OF") [El true 0 "" [] "RANAP_IE" ""] (SpList "RANAP_RABs_failed_to_reportList__raBs_failed_to_reportList_ies" ("RANAP_RABs_failed_to_reportList__raBs_failed_to_reportList_ies", "_asn_ctx"));
  (* src/ranap/RANAP_RABs-failed-to-reportList.c:120-145 *)
  De "RANAP_RABs_failed_to_reportList" ["SEQUENCE"; "SEQUENCE"; "SEQUENCE"; "SEQUENCE"] (Of "SEQUENCE") [El false 0 "RANAP_RABs_failed_to_reportList" ["raBs_failed_to_reportList_ies"] "RANAP_RABs-failed-to-reportList:raBs_failed_to_reportList_ies_2" "A_SEQUENCE_OF"] (SpSeq "RANAP_RABs_failed_to_reportList" ("RANAP_RABs_failed_to_reportList", "_asn_ctx") [] 0 0);
  (* src/ranap/RANAP_RAC.c:142-166 *)
  De "RANAP_RAC" ["OCTET_STRING"; "OCTET_STRING"; "OCTET_STRING"; "OCTET_STRING"] (Cast "OCTET_STRING_t") [] (SpNone);
  (* src/ranap/RANAP_RAI-List.c:34-59 *)
  De "RANAP_RAI_List" ["SEQUENCE_OF"; "SEQUENCE_OF"; "SEQUENCE_OF"; "SEQUENCE_OF"] (Of "SEQUENCE_OF") [El true 0 "" [] "RANAP_RAI" ""] (SpList "RANAP_RAI_List" ("RANAP_RAI_List", "_asn_ctx"));
  (* src/ranap/RANAP_RAI.c:58-83 *)
  De "RANAP_RAI" ["SEQUENCE"; "SEQUENCE"; "SEQUENCE"; "SEQUENCE"] (Of "SEQUENCE") [El false 0 "RANAP_RAI" ["lAI"] "RANAP_LAI" "";
    El false 0 "RANAP_RAI" ["rAC"] "RANAP_RAC" "";
    El true 1 "RANAP_RAI" ["iE_Extensions"] "RANAP_IE_Extensions" ""] (SpSeq "RANAP_RAI" ("RANAP_RAI", "_asn_ctx") [2] 1 0);
  (* src/ranap/RANAP_RAListofIdleModeUEs.c:149-174 *)
  De "RANAP_RAListofIdleModeUEs:emptyFullRAListofIdleModeUEs_3" ["NativeEnumerated"; "NativeEnumerated"; "NativeEnumerated"; "NativeEnumerated"] (Of "NativeEnumerated") [] (SpInt false);
  (* src/ranap/RANAP_RAListofIdleModeUEs.c:210-233 *)
  De "RANAP_RAListofIdleModeUEs" ["CHOICE"; "CHOICE"; "CHOICE"; "CHOICE"] (Of "CHOICE") [El false 0 "RANAP_RAListofIdleModeUEs" ["choice"; "notEmptyRAListofIdleModeUEs"] "RANAP_NotEmptyRAListofIdleModeUEs" "";
    El false 0 "RANAP_RAListofIdleModeUEs" ["choice"; "emptyFullRAListofIdleModeUEs"] "RANAP_RAListofIdleModeUEs:emptyFullRAListofIdleModeUEs_3" ""] (SpChoice "RANAP_RAListofIdleModeUEs" ("RANAP_RAListofIdleModeUEs", "_asn_ctx") ("RANAP_RAListofIdleModeUEs", "present") ("RANAP_RAListofIdleModeUEs", "present"));
  (* src/ranap/RANAP_RAListwithNoIdleModeUEsAnyMore.c:34-59 *)
  De "RANAP_RAListwithNoIdleModeUEsAnyMore" ["SEQUENCE_OF"; "SEQUENCE_OF"; "SEQUENCE_OF"; "SEQUENCE_OF"] (Of "SEQUENCE_OF") [El true 0 "" [] "RANAP_RAC" ""] (SpList "RANAP_RAListwithNoIdleModeUEsAnyMore" ("RANAP_RAListwithNoIdleModeUEsAnyMore", "_asn_ctx"));
  (* src/ranap/RANAP_RANAP-EnhancedRelocationInformationRequest.c:66-92 *)
  De "RANAP_RANAP-EnhancedRelocationInformationRequest:ranaP_EnhancedRelocationInformationRequest_ies_2" ["SEQUENCE_OF"; "SEQUENCE_OF"; "SEQUENCE_OF"; "SEQUENCE_OF"] (Of "SEQUENCE_OF") [El true 0 "" [] "RANAP_IE" ""] (SpList "RANAP_RANAP_EnhancedRelocationInformationRequest__ranaP_EnhancedRelocationInformationRequest_ies" ("RANAP_RANAP_EnhancedRelocationInformationRequest__ranaP_EnhancedRelocationInformationRequest_ies", "_asn_ctx"));
  (* src/ranap/RANAP_RANAP-EnhancedRelocationInformationRequest.c:120-145 *)
  De "RANAP_RANAP_EnhancedRelocationInformationRequest" ["SEQUENCE"; "SEQUENCE"; "SEQUENCE"; "SEQUENCE"] (Of "SEQUENCE") [El false 0 "RANAP_RANAP_EnhancedRelocationInformationRequest" ["ranaP_EnhancedRelocationInformationRequest_ies"] "RANAP_RANAP-EnhancedRelocationInformationRequest:ranaP_EnhancedRelocationInformationRequest_ies_2" "A_SEQUENCE_OF"] (SpSeq "RANAP_RANAP_EnhancedRelocationInformationRequest" ("RANAP_RANAP_EnhancedRelocationInformationRequest", "_asn_ctx") [] 0 0);
  (* src/ranap/RANAP_RANAP-EnhancedRelocationInformationResponse.c:66-92 *)
  De "RANAP_RANAP-EnhancedRelocationInformationResponse:ranaP_EnhancedRelocationInformationResponse_ies_2" ["SEQUENCE_OF"; "SEQUENCE_OF"; "SEQUENCE_OF"; "SEQUENCE_OF"] (Of "SEQUENCE_OF") [El true 0 "" [] "RANAP_IE" ""] (SpList "RANAP_RANAP_EnhancedRelocationInformationResponse__ranaP_EnhancedRelocationInformationResponse_ies" ("RANAP_RANAP_EnhancedRelocationInformationResponse__ranaP_EnhancedRelocationInformationResponse_ies", "_asn_ctx"));
  (* src/ranap/RANAP_RANAP-EnhancedRelocationInformationResponse.c:120-145 *)
  De "RANAP_RANAP_EnhancedRelocationInformationResponse" ["SEQUENCE"; "SEQUENCE"; "SEQUENCE"; "SEQUENCE"] (Of "SEQUENCE") [El false 0 "RANAP_RANAP_EnhancedRelocationInformationResponse" ["ranaP_EnhancedRelocationInformationResponse_ies"] "RANAP_RANAP-EnhancedRelocationInformationResponse:ranaP_EnhancedRelocationInformationResponse_ies_2" "A_SEQUENCE_OF"] (SpSeq "RANAP_RANAP_EnhancedRelocationInformationResponse" ("RANAP_RANAP_EnhancedRelocationInformationResponse", "_asn_ctx") [] 0 0);
  (* src/ranap/RANAP_RANAP-PDU.c:69-92 *)
  De "RANAP_RANAP_PDU" ["CHOICE"; "CHOICE"; "CHOICE"; "CHOICE"] (Of "CHOICE") [El false 0 "RANAP_RANAP_PDU" ["choice"; "initiatingMessage"] "RANAP_InitiatingMessage" "";
    El false 0 "RANAP_RANAP_PDU" ["choice"; "successfulOutcome"] "RANAP_SuccessfulOutcome" "";
    El false 0 "RANAP_RANAP_PDU" ["choice"; "unsuccessfulOutcome"] "RANAP_UnsuccessfulOutcome" "";
    El false 0 "RANAP_RANAP_PDU" ["choice"; "outcome"] "RANAP_Outcome" ""] (SpChoice "RANAP_RANAP_PDU" ("RANAP_RANAP_PDU", "_asn_ctx") ("RANAP_RANAP_PDU", "present") ("RANAP_RANAP_PDU", "present"));
  (* src/ranap/RANAP_RANAP-RelocationInformation.c:66-92 *)
  De "RANAP_RANAP-RelocationInformation:ranaP_RelocationInformation_ies_2" ["SEQUENCE_OF"; "SEQUENCE_OF"; "SEQUENCE_OF"; "SEQUENCE_OF"] (Of "SEQUENCE_OF") [El true 0 "" [] "RANAP_IE" ""] (SpList "RANAP_RANAP_RelocationInformation__ranaP_RelocationInformation_ies" ("RANAP_RANAP_RelocationInformation__ranaP_RelocationInformation_ies", "_asn_ctx"));
  (* src/ranap/RANAP_RANAP-RelocationInformation.c:120-145 *)
  De "RANAP_RANAP_RelocationInformation" ["SEQUENCE"; "SEQUENCE"; "SEQUENCE"; "SEQUENCE"] (Of "SEQUENCE") [El false 0 "RANAP_RANAP_RelocationInformation" ["ranaP_RelocationInformation_ies"] "RANAP_RANAP-RelocationInformation:ranaP_RelocationInformation_ies_2" "A_SEQUENCE_OF"] (SpSeq "RANAP_RANAP_RelocationInformation" ("RANAP_RANAP_RelocationInformation", "_asn_ctx") [] 0 0);
  (* src/ranap/RANAP_RAT-Type.c:143-167 *)
  De "RANAP_RAT_Type" ["NativeEnumerated"; "NativeEnumerated"; "NativeEnumerated"; "NativeEnumerated"] (Of "NativeEnumerated") [] (SpInt false);
  (* src/ranap/RANAP_RAofIdleModeUEs.c:34-59 *)
  De "RANAP_RAofIdleModeUEs" ["SEQUENCE_OF"; "SEQUENCE_OF"; "SEQUENCE_OF"; "SEQUENCE_OF"] (Of "SEQUENCE_OF") [El true 0 "" [] "RANAP_RAC" ""] (SpList "RANAP_RAofIdleModeUEs" ("RANAP_RAofIdleModeUEs", "_asn_ctx"));
  (* src/ranap/RANAP_RIM-Transfer.c:58-83 *)
  De "RANAP_RIM_Transfer" ["SEQUENCE"; "SEQUENCE"; "SEQUENCE"; "SEQUENCE"] (Of "SEQUENCE") [El false 0 "RANAP_RIM_Transfer" ["rIMInformation"] "RANAP_RIMInformation" "";
    El true 2 "RANAP_RIM_Transfer" ["rIMRoutingAddress"] "RANAP_RIMRoutingAddress" "";
    El true 1 "RANAP_RIM_Transfer" ["iE_Extensions"] "RANAP_IE_Extensions" ""] (SpSeq "RANAP_RIM_Transfer" ("RANAP_RIM_Transfer", "_asn_ctx") [1; 2] 2 0);
  (* src/ranap/RANAP_RIMInformation.c:119-143 *)
  De "RANAP_RIMInformation" ["OCTET_STRING"; "OCTET_STRING"; "OCTET_STRING"; "OCTET_STRING"] (Of "OCTET_STRING") [] (SpNone);
  (* src/ranap/RANAP_RIMRoutingAddress.c:59-82 *)
  De "RANAP_RIMRoutingAddress" ["CHOICE"; "CHOICE"; "CHOICE"; "CHOICE"] (Of "CHOICE") [El false 0 "RANAP_RIMRoutingAddress" ["choice"; "targetRNC_ID"] "RANAP_TargetRNC_ID" "";
    El false 0 "RANAP_RIMRoutingAddress" ["choice"; "gERAN_Cell_ID"] "RANAP_GERAN_Cell_ID" "";
    El false 0 "RANAP_RIMRoutingAddress" ["choice"; "targeteNB_ID"] "RANAP_TargetENB_ID" ""] (SpChoice "RANAP_RIMRoutingAddress" ("RANAP_RIMRoutingAddress", "_asn_ctx") ("RANAP_RIMRoutingAddress", "present") ("RANAP_RIMRoutingAddress", "present"));
  (* src/ranap/RANAP_RNC-ID.c:141-165 *)
  De "RANAP_RNC_ID" ["NativeInteger"; "NativeInteger"; "NativeInteger"; "NativeInteger"] (Cast "long") [] (SpNone);
  (* src/ranap/RANAP_RNCTraceInformation.c:142-167 *)
  De "RANAP_RNCTraceInformation:traceActivationIndicato_3" ["NativeEnumerated"; "NativeEnumerated"; "NativeEnumerated"; "NativeEnumerated"] (Of "NativeEnumerated") [] (SpInt false);
  (* src/ranap/RANAP_RNCTraceInformation.c:227-252 *)
  De "RANAP_RNCTraceInformation" ["SEQUENCE"; "SEQUENCE"; "SEQUENCE"; "SEQUENCE"] (Of "SEQUENCE") [El false 0 "RANAP_RNCTraceInformation" ["traceReference"] "RANAP_TraceReference" "";
    El false 0 "RANAP_RNCTraceInformation" ["traceActivationIndicato"] "RANAP_RNCTraceInformation:traceActivationIndicato_3" "";
    El true 2 "RANAP_RNCTraceInformation" ["equipmentsToBeTraced"] "RANAP_EquipmentsToBeTraced" "";
    El true 1 "RANAP_RNCTraceInformation" ["iE_Extensions"] "RANAP_IE_Extensions" ""] (SpSeq "RANAP_RNCTraceInformation" ("RANAP_RNCTraceInformation", "_asn_ctx") [2; 3] 2 0);
  (* src/ranap/RANAP_RNSAPRelocationParameters.c:78-103 *)
  De "RANAP_RNSAPRelocationParameters" ["SEQUENCE"; "SEQUENCE"; "SEQUENCE"; "SEQUENCE"] (Of "SEQUENCE") [El true 5 "RANAP_RNSAPRelocationParameters" ["rabParmetersList"] "RANAP_RABParametersList" "";
    El true 4 "RANAP_RNSAPRelocationParameters" ["locationReporting"] "RANAP_LocationReportingTransferInformation" "";
    El true 3 "RANAP_RNSAPRelocationParameters" ["traceInformation"] "RANAP_TraceInformation" "";
    El true 2 "RANAP_RNSAPRelocationParameters" ["sourceSAI"] "RANAP_SAI" "";
    El true 1 "RANAP_RNSAPRelocationParameters" ["iE_Extensions"] "RANAP_IE_Extensions" ""] (SpSeq "RANAP_RNSAPRelocationParameters" ("RANAP_RNSAPRelocationParameters", "_asn_ctx") [0; 1; 2; 3; 4] 5 0);
  (* src/ranap/RANAP_RRC-Container.c:119-143 *)
  De "RANAP_RRC_Container" ["OCTET_STRING"; "OCTET_STRING"; "OCTET_STRING"; "OCTET_STRING"] (Of "OCTET_STRING") [] (SpNone);
  (* src/ranap/RANAP_RSRQ-Extension.c:141-165 *)
  De "RANAP_RSRQ_Extension" ["NativeInteger"; "NativeInteger"; "NativeInteger"; "NativeInteger"] (Cast "long") [] (SpNone);
  (* src/ranap/RANAP_RSRQ-Type.c:46-71 *)
  De "RANAP_RSRQ_Type" ["SEQUENCE"; "SEQUENCE"; "SEQUENCE"; "SEQUENCE"] (Of "SEQUENCE") [El false 0 "RANAP_RSRQ_Type" ["allSymbols"] "BOOLEAN" "";
    El false 0 "RANAP_RSRQ_Type" ["wideBand"] "BOOLEAN" ""] (SpSeq "RANAP_RSRQ_Type" ("RANAP_RSRQ_Type", "_asn_ctx") [] 0 0);
  (* src/ranap/RANAP_RSRVCC-HO-Indication.c:141-165 *)
  De "RANAP_RSRVCC_HO_Indication" ["NativeEnumerated"; "NativeEnumerated"; "NativeEnumerated"; "NativeEnumerated"] (Of "NativeEnumerated") [] (SpInt false);
  (* src/ranap/RANAP_RSRVCC-Information.c:125-150 *)
  De "RANAP_RSRVCC_Information" ["SEQUENCE"; "SEQUENCE"; "SEQUENCE"; "SEQUENCE"] (Of "SEQUENCE") [El false 0 "RANAP_RSRVCC_Information" ["nonce"] "BIT_STRING" "BIT_STRING_t";
    El false 0 "RANAP_RSRVCC_Information" ["iMSInformation"] "OCTET_STRING" "OCTET_STRING_t";
    El true 1 "RANAP_RSRVCC_Information" ["iE_Extensions"] "RANAP_IE_Extensions" ""] (SpSeq "RANAP_RSRVCC_Information" ("RANAP_RSRVCC_Information", "_asn_ctx") [2] 1 0);
  (* src/ranap/RANAP_RSRVCC-Operation-Possible.c:141-165 *)
  De "RANAP_RSRVCC_Operation_Possible" ["NativeEnumerated"; "NativeEnumerated"; "NativeEnumerated"; "NativeEnumerated"] (Of "NativeEnumerated") [] (SpInt false);
  (* src/ranap/RANAP_RTLoadValue.c:141-165 *)
  De "RANAP_RTLoadValue" ["NativeInteger"; "NativeInteger"; "NativeInteger"; "NativeInteger"] (Cast "long") [] (SpNone);
  (* src/ranap/RANAP_RateControlAllowed.c:141-165 *)
  De "RANAP_RateControlAllowed" ["NativeEnumerated"; "NativeEnumerated"; "NativeEnumerated"; "NativeEnumerated"] (Of "NativeEnumerated") [] (SpInt false);
  (* src/ranap/RANAP_RedirectAttemptFlag.c:119-143 *)
  De "RANAP_RedirectAttemptFlag" ["NULL"; "NULL"; "NULL"; "NULL"] (Of "NULL") [] (SpNone);
  (* src/ranap/RANAP_RedirectionCompleted.c:141-165 *)
  De "RANAP_RedirectionCompleted" ["NativeEnumerated"; "NativeEnumerated"; "NativeEnumerated"; "NativeEnumerated"] (Of "NativeEnumerated") [] (SpInt false);
  (* src/ranap/RANAP_RedirectionIndication.c:66-92 *)
  De "RANAP_RedirectionIndication:redirectionIndication_ies_2" ["SEQUENCE_OF"; "SEQUENCE_OF"; "SEQUENCE_OF"; "SEQUENCE_OF"] (Of "SEQUENCE_OF") [El true 0 "" [] "RANAP_IE" ""] (SpList "RANAP_RedirectionIndication__redirectionIndication_ies" ("RANAP_RedirectionIndication__redirectionIndication_ies", "_asn_ctx"));
  (* src/ranap/RANAP_RedirectionIndication.c:120-145 *)
  De "RANAP_RedirectionIndication" ["SEQUENCE"; "SEQUENCE"; "SEQUENCE"; "SEQUENCE"] (Of "SEQUENCE") [El false 0 "RANAP_RedirectionIndication" ["redirectionIndication_ies"] "RANAP_RedirectionIndication:redirectionIndication_ies_2" "A_SEQUENCE_OF"] (SpSeq "RANAP_RedirectionIndication" ("RANAP_RedirectionIndication", "_asn_ctx") [] 0 0);
  (* src/ranap/RANAP_RejectCauseValue.c:155-179 *)
  De "RANAP_RejectCauseValue" ["NativeEnumerated"; "NativeEnumerated"; "NativeEnumerated"; "NativeEnumerated"] (Of "NativeEnumerated") [] (SpInt false);
  (* src/ranap/RANAP_RelocationCancel.c:66-92 *)
  De "RANAP_RelocationCancel:relocationCancel_ies_2" ["SEQUENCE_OF"; "SEQUENCE_OF"; "SEQUENCE_OF"; "SEQUENCE_OF"] (Of "SEQUENCE_OF") [El true 0 "" [] "RANAP_IE" ""] (SpList "RANAP_RelocationCancel__relocationCancel_ies" ("RANAP_RelocationCancel__relocationCancel_ies", "_asn_ctx"));
  (* src/ranap/RANAP_RelocationCancel.c:120-145 *)
  De "RANAP_RelocationCancel" ["SEQUENCE"; "SEQUENCE"; "SEQUENCE"; "SEQUENCE"] (Of "SEQUENCE") [El false 0 "RANAP_RelocationCancel" ["relocationCancel_ies"] "RANAP_RelocationCancel:relocationCancel_ies_2" "A_SEQUENCE_OF"] (SpSeq "RANAP_RelocationCancel" ("RANAP_RelocationCancel", "_asn_ctx") [] 0 0);
  (* src/ranap/RANAP_RelocationCancelAcknowledge.c:66-92 *)
  De "RANAP_RelocationCancelAcknowledge:relocationCancelAcknowledge_ies_2" ["SEQUENCE_OF"; "SEQUENCE_OF"; "SEQUENCE_OF"; "SEQUENCE_OF"] (Of "SEQUENCE_OF") [El true 0 "" [] "RANAP_IE" ""] (SpList "RANAP_RelocationCancelAcknowledge__relocationCancelAcknowledge_ies" ("RANAP_RelocationCancelAcknowledge__relocationCancelAcknowledge_ies", "_asn_ctx"));
  (* src/ranap/RANAP_RelocationCancelAcknowledge.c:120-145 *)
  De "RANAP_RelocationCancelAcknowledge" ["SEQUENCE"; "SEQUENCE"; "SEQUENCE"; "SEQUENCE"] (Of "SEQUENCE") [El false 0 "RANAP_RelocationCancelAcknowledge" ["relocationCancelAcknowledge_ies"] "RANAP_RelocationCancelAcknowledge:relocationCancelAcknowledge_ies_2" "A_SEQUENCE_OF"] (SpSeq "RANAP_RelocationCancelAcknowledge" ("RANAP_RelocationCancelAcknowledge", "_asn_ctx") [] 0 0);
  (* src/ranap/RANAP_RelocationCommand.c:66-92 *)
  De "RANAP_RelocationCommand:relocationCommand_ies_2" ["SEQUENCE_OF"; "SEQUENCE_OF"; "SEQUENCE_OF"; "SEQUENCE_OF"] (Of "SEQUENCE_OF") [El true 0 "" [] "RANAP_IE" ""] (SpList "RANAP_RelocationCommand__relocationCommand_ies" ("RANAP_RelocationCommand__relocationCommand_ies", "_asn_ctx"));
  (* src/ranap/RANAP_RelocationCommand.c:120-145 *)
  De "RANAP_RelocationCommand" ["SEQUENCE"; "SEQUENCE"; "SEQUENCE"; "SEQUENCE"] (Of "SEQUENCE") [El false 0 "RANAP_RelocationCommand" ["relocationCommand_ies"] "RANAP_RelocationCommand:relocationCommand_ies_2" "A_SEQUENCE_OF"] (SpSeq "RANAP_RelocationCommand" ("RANAP_RelocationCommand", "_asn_ctx") [] 0 0);
  (* src/ranap/RANAP_RelocationComplete.c:66-92 *)
  De "RANAP_RelocationComplete:relocationComplete_ies_2" ["SEQUENCE_OF"; "SEQUENCE_OF"; "SEQUENCE_OF"; "SEQUENCE_OF"] (Of "SEQUENCE_OF") [El true 0 "" [] "RANAP_IE" ""] (SpList "RANAP_RelocationComplete__relocationComplete_ies" ("RANAP_RelocationComplete__relocationComplete_ies", "_asn_ctx"));
  (* src/ranap/RANAP_RelocationComplete.c:120-145 *)
  De "RANAP_RelocationComplete" ["SEQUENCE"; "SEQUENCE"; "SEQUENCE"; "SEQUENCE"] (Of "SEQUENCE") [El false 0 "RANAP_RelocationComplete" ["relocationComplete_ies"] "RANAP_RelocationComplete:relocationComplete_ies_2" "A_SEQUENCE_OF"] (SpSeq "RANAP_RelocationComplete" ("RANAP_RelocationComplete", "_asn_ctx") [] 0 0);
  (* src/ranap/RANAP_RelocationDetect.c:66-92 *)
  De "RANAP_RelocationDetect:relocationDetect_ies_2" ["SEQUENCE_OF"; "SEQUENCE_OF"; "SEQUENCE_OF"; "SEQUENCE_OF"] (Of "SEQUENCE_OF") [El true 0 "" [] "RANAP_IE" ""] (SpList "RANAP_RelocationDetect__relocationDetect_ies" ("RANAP_RelocationDetect__relocationDetect_ies", "_asn_ctx"));
  (* src/ranap/RANAP_RelocationDetect.c:120-145 *)
  De "RANAP_RelocationDetect" ["SEQUENCE"; "SEQUENCE"; "SEQUENCE"; "SEQUENCE"] (Of "SEQUENCE") [El false 0 "RANAP_RelocationDetect" ["relocationDetect_ies"] "RANAP_RelocationDetect:relocationDetect_ies_2" "A_SEQUENCE_OF"] (SpSeq "RANAP_RelocationDetect" ("RANAP_RelocationDetect", "_asn_ctx") [] 0 0);
  (* src/ranap/RANAP_RelocationFailure.c:66-92 *)
  De "RANAP_RelocationFailure:relocationFailure_ies_2" ["SEQUENCE_OF"; "SEQUENCE_OF"; "SEQUENCE_OF"; "SEQUENCE_OF"] (Of "SEQUENCE_OF") [El true 0 "" [] "RANAP_IE" ""] (SpList "RANAP_RelocationFailure__relocationFailure_ies" ("RANAP_RelocationFailure__relocationFailure_ies", "_asn_ctx"));
  (* src/ranap/RANAP_RelocationFailure.c:120-145 *)
  De "RANAP_RelocationFailure" ["SEQUENCE"; "SEQUENCE"; "SEQUENCE"; "SEQUENCE"] (Of "SEQUENCE") [El false 0 "RANAP_RelocationFailure" ["relocationFailure_ies"] "RANAP_RelocationFailure:relocationFailure_ies_2" "A_SEQUENCE_OF"] (SpSeq "RANAP_RelocationFailure" ("RANAP_RelocationFailure", "_asn_ctx") [] 0 0);
  (* src/ranap/RANAP_RelocationPreparationFailure.c:66-92 *)
  De "RANAP_RelocationPreparationFailure:relocationPreparationFailure_ies_2" ["SEQUENCE_OF"; "SEQUENCE_OF"; "SEQUENCE_OF"; "SEQUENCE_OF"] (Of "SEQUENCE_OF") [El true 0 "" [] "RANAP_IE" ""] (SpList "RANAP_RelocationPreparationFailure__relocationPreparationFailure_ies" ("RANAP_RelocationPreparationFailure__relocationPreparationFailure_ies", "_asn_ctx"));
  (* src/ranap/RANAP_RelocationPreparationFailure.c:120-145 *)
  De "RANAP_RelocationPreparationFailure" ["SEQUENCE"; "SEQUENCE"; "SEQUENCE"; "SEQUENCE"] (Of "SEQUENCE") [El false 0 "RANAP_RelocationPreparationFailure" ["relocationPreparationFailure_ies"] "RANAP_RelocationPreparationFailure:relocationPreparationFailure_ies_2" "A_SEQUENCE_OF"] (SpSeq "RANAP_RelocationPreparationFailure" ("RANAP_RelocationPreparationFailure", "_asn_ctx") [] 0 0);
  (* src/ranap/RANAP_RelocationRequest.c:66-92 *)
  De "RANAP_RelocationRequest:relocationRequest_ies_2" ["SEQUENCE_OF"; "SEQUENCE_OF"; "SEQUENCE_OF"; "SEQUENCE_OF"] (Of "SEQUENCE_OF") [El true 0 "" [] "RANAP_IE" ""] (SpList "RANAP_RelocationRequest__relocationRequest_ies" ("RANAP_RelocationRequest__relocationRequest_ies", "_asn_ctx"));
  (* src/ranap/RANAP_RelocationRequest.c:120-145 *)
  De "RANAP_RelocationRequest" ["SEQUENCE"; "SEQUENCE"; "SEQUENCE"; "SEQUENCE"] (Of "SEQUENCE") [El false 0 "RANAP_RelocationRequest" ["relocationRequest_ies"] "RANAP_RelocationRequest:relocationRequest_ies_2" "A_SEQUENCE_OF"] (SpSeq "RANAP_RelocationRequest" ("RANAP_RelocationRequest", "_asn_ctx") [] 0 0);
  (* src/ranap/RANAP_RelocationRequestAcknowledge.c:66-92 *)
  De "RANAP_RelocationRequestAcknowledge:relocationRequestAcknowledge_ies_2" ["SEQUENCE_OF"; "SEQUENCE_OF"; "SEQUENCE_OF"; "SEQUENCE_OF"] (Of "SEQUENCE_OF") [El true 0 "" [] "RANAP_IE" ""] (SpList "RANAP_RelocationRequestAcknowledge__relocationRequestAcknowledge_ies" ("RANAP_RelocationRequestAcknowledge__relocationRequestAcknowledge_ies", "_asn_ctx"));
  (* src/ranap/RANAP_RelocationRequestAcknowledge.c:120-145 *)
  De "RANAP_RelocationRequestAcknowledge" ["SEQUENCE"; "SEQUENCE"; "SEQUENCE"; "SEQUENCE"] (Of "SEQUENCE") [El false 0 "RANAP_RelocationRequestAcknowledge" ["relocationRequestAcknowledge_ies"] "RANAP_RelocationRequestAcknowledge:relocationRequestAcknowledge_ies_2" "A_SEQUENCE_OF"] (SpSeq "RANAP_RelocationRequestAcknowledge" ("RANAP_RelocationRequestAcknowledge", "_asn_ctx") [] 0 0);
  (* src/ranap/RANAP_RelocationRequired.c:66-92 *)
  De "RANAP_RelocationRequired:relocationRequired_ies_2" ["SEQUENCE_OF"; "SEQUENCE_OF"; "SEQUENCE_OF"; "SEQUENCE_OF"] (Of "SEQUENCE_OF") [El true 0 "" [] "RANAP_IE" ""] (SpList "RANAP_RelocationRequired__relocationRequired_ies" ("RANAP_RelocationRequired__relocationRequired_ies", "_asn_ctx"));
  (* src/ranap/RANAP_RelocationRequired.c:120-145 *)
  De "RANAP_RelocationRequired" ["SEQUENCE"; "SEQUENCE"; "SEQUENCE"; "SEQUENCE"] (Of "SEQUENCE") [El false 0 "RANAP_RelocationRequired" ["relocationRequired_ies"] "RANAP_RelocationRequired:relocationRequired_ies_2" "A_SEQUENCE_OF"] (SpSeq "RANAP_RelocationRequired" ("RANAP_RelocationRequired", "_asn_ctx") [] 0 0);
  (* src/ranap/RANAP_RelocationRequirement.c:145-169 *)
  De "RANAP_RelocationRequirement" ["NativeEnumerated"; "NativeEnumerated"; "NativeEnumerated"; "NativeEnumerated"] (Of "NativeEnumerated") [] (SpInt false);
  (* src/ranap/RANAP_RelocationType.c:143-167 *)
  De "RANAP_RelocationType" ["NativeEnumerated"; "NativeEnumerated"; "NativeEnumerated"; "NativeEnumerated"] (Of "NativeEnumerated") [] (SpInt false);
  (* src/ranap/RANAP_RepetitionNumber0.c:141-165 *)
  De "RANAP_RepetitionNumber0" ["NativeInteger"; "NativeInteger"; "NativeInteger"; "NativeInteger"] (Cast "long") [] (SpNone);
  (* src/ranap/RANAP_RepetitionNumber1.c:141-165 *)
  De "RANAP_RepetitionNumber1" ["NativeInteger"; "NativeInteger"; "NativeInteger"; "NativeInteger"] (Cast "long") [] (SpNone);
  (* src/ranap/RANAP_ReportAmount.c:155-179 *)
  De "RANAP_ReportAmount" ["NativeEnumerated"; "NativeEnumerated"; "NativeEnumerated"; "NativeEnumerated"] (Of "NativeEnumerated") [] (SpInt false);
  (* src/ranap/RANAP_ReportArea.c:143-167 *)
  De "RANAP_ReportArea" ["NativeEnumerated"; "NativeEnumerated"; "NativeEnumerated"; "NativeEnumerated"] (Of "NativeEnumerated") [] (SpInt false);
  (* src/ranap/RANAP_ReportChangeOfSAI.c:141-165 *)
  De "RANAP_ReportChangeOfSAI" ["NativeEnumerated"; "NativeEnumerated"; "NativeEnumerated"; "NativeEnumerated"] (Of "NativeEnumerated") [] (SpInt false);
  (* src/ranap/RANAP_ReportInterval.c:169-193 *)
  De "RANAP_ReportInterval" ["NativeEnumerated"; "NativeEnumerated"; "NativeEnumerated"; "NativeEnumerated"] (Of "NativeEnumerated") [] (SpInt false);
  (* src/ranap/RANAP_RequestType.c:88-113 *)
  De "RANAP_RequestType" ["SEQUENCE"; "SEQUENCE"; "SEQUENCE"; "SEQUENCE"] (Of "SEQUENCE") [El false 0 "RANAP_RequestType" ["event"] "RANAP_Event" "";
    El false 0 "RANAP_RequestType" ["reportArea"] "RANAP_ReportArea" "";
    El true 1 "RANAP_RequestType" ["accuracyCode"] "NativeInteger" "long"] (SpSeq "RANAP_RequestType" ("RANAP_RequestType", "_asn_ctx") [2] 1 0);
  (* src/ranap/RANAP_Requested-RAB-Parameter-ExtendedGuaranteedBitrateList.c:34-59 *)
  De "RANAP_Requested_RAB_Parameter_ExtendedGuaranteedBitrateList" ["SEQUENCE_OF"; "SEQUENCE_OF"; "SEQUENCE_OF"; "SEQUENCE_OF"] (Of "SEQUENCE_OF") [El true 0 "" [] "RANAP_ExtendedGuaranteedBitrate" ""] (SpList "RANAP_Requested_RAB_Parameter_ExtendedGuaranteedBitrateList" ("RANAP_Requested_RAB_Parameter_ExtendedGuaranteedBitrateList", "_asn_ctx"));
  (* src/ranap/RANAP_Requested-RAB-Parameter-ExtendedMaxBitrateList.c:34-59 *)
  De "RANAP_Requested_RAB_Parameter_ExtendedMaxBitrateList" ["SEQUENCE_OF"; "SEQUENCE_OF"; "SEQUENCE_OF"; "SEQUENCE_OF"] (Of "SEQUENCE_OF") [El true 0 "" [] "RANAP_ExtendedMaxBitrate" ""] (SpList "RANAP_Requested_RAB_Parameter_ExtendedMaxBitrateList" ("RANAP_Requested_RAB_Parameter_ExtendedMaxBitrateList", "_asn_ctx"));
  (* src/ranap/RANAP_Requested-RAB-Parameter-GuaranteedBitrateList.c:34-59 *)
  De "RANAP_Requested_RAB_Parameter_GuaranteedBitrateList" ["SEQUENCE_OF"; "SEQUENCE_OF"; "SEQUENCE_OF"; "SEQUENCE_OF"] (Of "SEQUENCE_OF") [El true 0 "" [] "RANAP_GuaranteedBitrate" ""] (SpList "RANAP_Requested_RAB_Parameter_GuaranteedBitrateList" ("RANAP_Requested_RAB_Parameter_GuaranteedBitrateList", "_asn_ctx"));
  (* src/ranap/RANAP_Requested-RAB-Parameter-MaxBitrateList.c:34-59 *)
  De "RANAP_Requested_RAB_Parameter_MaxBitrateList" ["SEQUENCE_OF"; "SEQUENCE_OF"; "SEQUENCE_OF"; "SEQUENCE_OF"] (Of "SEQUENCE_OF") [El true 0 "" [] "RANAP_MaxBitrate" ""] (SpList "RANAP_Requested_RAB_Parameter_MaxBitrateList" ("RANAP_Requested_RAB_Parameter_MaxBitrateList", "_asn_ctx"));
  (* src/ranap/RANAP_Requested-RAB-Parameter-Values.c:58-83 *)
  De "RANAP_Requested_RAB_Parameter_Values" ["SEQUENCE"; "SEQUENCE"; "SEQUENCE"; "SEQUENCE"] (Of "SEQUENCE") [El true 3 "RANAP_Requested_RAB_Parameter_Values" ["requestedMaxBitrates"] "RANAP_Requested_RAB_Parameter_MaxBitrateList" "";
    El true 2 "RANAP_Requested_RAB_Parameter_Values" ["requestedGuaranteedBitrates"] "RANAP_Requested_RAB_Parameter_GuaranteedBitrateList" "";
    El true 1 "RANAP_Requested_RAB_Parameter_Values" ["iE_Extensions"] "RANAP_IE_Extensions" ""] (SpSeq "RANAP_Requested_RAB_Parameter_Values" ("RANAP_Requested_RAB_Parameter_Values", "_asn_ctx") [0; 1; 2] 3 0);
  (* src/ranap/RANAP_RequestedGANSSAssistanceData.c:142-166 *)
  De "RANAP_RequestedGANSSAssistanceData" ["OCTET_STRING"; "OCTET_STRING"; "OCTET_STRING"; "OCTET_STRING"] (Cast "OCTET_STRING_t") [] (SpNone);
  (* src/ranap/RANAP_RequestedGPSAssistanceData.c:142-166 *)
  De "RANAP_RequestedGPSAssistanceData" ["OCTET_STRING"; "OCTET_STRING"; "OCTET_STRING"; "OCTET_STRING"] (Cast "OCTET_STRING_t") [] (SpNone);
  (* src/ranap/RANAP_RequestedLocationRelatedDataType.c:155-179 *)
  De "RANAP_RequestedLocationRelatedDataType" ["NativeEnumerated"; "NativeEnumerated"; "NativeEnumerated"; "NativeEnumerated"] (Of "NativeEnumerated") [] (SpInt false);
  (* src/ranap/RANAP_RequestedMBMSIPMulticastAddressandAPNRequest.c:34-59 *)
  De "RANAP_RequestedMBMSIPMulticastAddressandAPNRequest" ["SEQUENCE_OF"; "SEQUENCE_OF"; "SEQUENCE_OF"; "SEQUENCE_OF"] (Of "SEQUENCE_OF") [El true 0 "" [] "RANAP_MBMSIPMulticastAddressandAPNlist" ""] (SpList "RANAP_RequestedMBMSIPMulticastAddressandAPNRequest" ("RANAP_RequestedMBMSIPMulticastAddressandAPNRequest", "_asn_ctx"));
  (* src/ranap/RANAP_RequestedMulticastServiceList.c:34-59 *)
  De "RANAP_RequestedMulticastServiceList" ["SEQUENCE_OF"; "SEQUENCE_OF"; "SEQUENCE_OF"; "SEQUENCE_OF"] (Of "SEQUENCE_OF") [El true 0 "" [] "RANAP_TMGI" ""] (SpList "RANAP_RequestedMulticastServiceList" ("RANAP_RequestedMulticastServiceList", "_asn_ctx"));
  (* src/ranap/RANAP_Reset.c:66-92 *)
  De "RANAP_Reset:reset_ies_2" ["SEQUENCE_OF"; "SEQUENCE_OF"; "SEQUENCE_OF"; "SEQUENCE_OF"] (Of "SEQUENCE_OF") [El true 0 "" [] "RANAP_IE" ""] (SpList "RANAP_Reset__reset_ies" ("RANAP_Reset__reset_ies", "_asn_ctx"));
  (* src/ranap/RANAP_Reset.c:120-145 *)
  De "RANAP_Reset" ["SEQUENCE"; "SEQUENCE"; "SEQUENCE"; "SEQUENCE"] (Of "SEQUENCE") [El false 0 "RANAP_Reset" ["reset_ies"] "RANAP_Reset:reset_ies_2" "A_SEQUENCE_OF"] (SpSeq "RANAP_Reset" ("RANAP_Reset", "_asn_ctx") [] 0 0);
  (* src/ranap/RANAP_ResetAcknowledge.c:66-92 *)
  De "RANAP_ResetAcknowledge:resetAcknowledge_ies_2" ["SEQUENCE_OF"; "SEQUENCE_OF"; "SEQUENCE_OF"; "SEQUENCE_OF"] (Of "SEQUENCE_OF") [El true 0 "" [] "RANAP_IE" ""] (SpList "RANAP_ResetAcknowledge__resetAcknowledge_ies" ("RANAP_ResetAcknowledge__resetAcknowledge_ies", "_asn_ctx"));
  (* src/ranap/RANAP_ResetAcknowledge.c:120-145 *)
  De "RANAP_ResetAcknowledge" ["SEQUENCE"; "SEQUENCE"; "SEQUENCE"; "SEQUENCE"] (Of "SEQUENCE") [El false 0 "RANAP_ResetAcknowledge" ["resetAcknowledge_ies"] "RANAP_ResetAcknowledge:resetAcknowledge_ies_2" "A_SEQUENCE_OF"] (SpSeq "RANAP_ResetAcknowledge" ("RANAP_ResetAcknowledge", "_asn_ctx") [] 0 0);
  (* src/ranap/RANAP_ResetResource.c:66-92 *)
  De "RANAP_ResetResource:resetResource_ies_2" ["SEQUENCE_OF"; "SEQUENCE_OF"; "SEQUENCE_OF"; "SEQUENCE_OF"] (Of "SEQUENCE_OF") [El true 0 "" [] "RANAP_IE" ""] (SpList "RANAP_ResetResource__resetResource_ies" ("RANAP_ResetResource__resetResource_ies", "_asn_ctx"));
  (* src/ranap/RANAP_ResetResource.c:120-145 *)
  De "RANAP_ResetResource" ["SEQUENCE"; "SEQUENCE"; "SEQUENCE"; "SEQUENCE"] (Of "SEQUENCE") [El false 0 "RANAP_ResetResource" ["resetResource_ies"] "RANAP_ResetResource:resetResource_ies_2" "A_SEQUENCE_OF"] (SpSeq "RANAP_ResetResource" ("RANAP_ResetResource", "_asn_ctx") [] 0 0);
  (* src/ranap/RANAP_ResetResourceAckItem.c:48-73 *)
  De "RANAP_ResetResourceAckItem" ["SEQUENCE"; "SEQUENCE"; "SEQUENCE"; "SEQUENCE"] (Of "SEQUENCE") [El false 0 "RANAP_ResetResourceAckItem" ["iuSigConId"] "RANAP_IuSignallingConnectionIdentifier" "";
    El true 1 "RANAP_ResetResourceAckItem" ["iE_Extensions"] "RANAP_ProtocolExtensionContainer" ""] (SpSeq "RANAP_ResetResourceAckItem" ("RANAP_ResetResourceAckItem", "_asn_ctx") [1] 1 0);
  (* src/ranap/RANAP_ResetResourceAckList.c:67-93 *)
  De "RANAP_ResetResourceAckList:resetResourceAckList_ies_2" ["SEQUENCE_OF"; "SEQUENCE_OF"; "SEQUENCE_OF"; "SEQUENCE_OF"] (Of "SEQUENCE_OF") [El true 0 "" [] "RANAP_IE" ""] (SpList "RANAP_ResetResourceAckList__resetResourceAckList_ies" ("RANAP_ResetResourceAckList__resetResourceAckList_ies", "_asn_ctx"));
  (* src/ranap/RANAP_ResetResourceAckList.c:121-146 *)
  De "RANAP_ResetResourceAckList" ["SEQUENCE"; "SEQUENCE"; "SEQUENCE"; "SEQUENCE"] (Of "SEQUENCE") [El false 0 "RANAP_ResetResourceAckList" ["resetResourceAckList_ies"] "RANAP_ResetResourceAckList:resetResourceAckList_ies_2" "A_SEQUENCE_OF"] (SpSeq "RANAP_ResetResourceAckList" ("RANAP_ResetResourceAckList", "_asn_ctx") [] 0 0);
  (* src/ranap/RANAP_ResetResourceAcknowledge.c:66-92 *)
  De "RANAP_ResetResourceAcknowledge:resetResourceAcknowledge_ies_2" ["SEQUENCE_OF"; "SEQUENCE_OF"; "SEQUENCE_OF"; "SEQUENCE_OF"] (Of "SEQUENCE_OF") [El true 0 "" [] "RANAP_IE" ""] (SpList "RANAP_ResetResourceAcknowledge__resetResourceAcknowledge_ies" ("RANAP_ResetResourceAcknowledge__resetResourceAcknowledge_ies", "_asn_ctx"));
  (* src/ranap/RANAP_ResetResourceAcknowledge.c:120-145 *)
  De "RANAP_ResetResourceAcknowledge" ["SEQUENCE"; "SEQUENCE"; "SEQUENCE"; "SEQUENCE"] (Of "SEQUENCE") [El false 0 "RANAP_ResetResourceAcknowledge" ["resetResourceAcknowledge_ies"] "RANAP_ResetResourceAcknowledge:resetResourceAcknowledge_ies_2" "A_SEQUENCE_OF"] (SpSeq "RANAP_ResetResourceAcknowledge" ("RANAP_ResetResourceAcknowledge", "_asn_ctx") [] 0 0);
  (* src/ranap/RANAP_ResetResourceItem.c:48-73 *)
  De "RANAP_ResetResourceItem" ["SEQUENCE"; "SEQUENCE"; "SEQUENCE"; "SEQUENCE"] (Of "SEQUENCE") [El false 0 "RANAP_ResetResourceItem" ["iuSigConId"] "RANAP_IuSignallingConnectionIdentifier" "";
    El true 1 "RANAP_ResetResourceItem" ["iE_Extensions"] "RANAP_ProtocolExtensionContainer" ""] (SpSeq "RANAP_ResetResourceItem" ("RANAP_ResetResourceItem", "_asn_ctx") [1] 1 0);
  (* src/ranap/RANAP_ResetResourceList.c:67-93 *)
  De "RANAP_ResetResourceList:resetResourceList_ies_2" ["SEQUENCE_OF"; "SEQUENCE_OF"; "SEQUENCE_OF"; "SEQUENCE_OF"] (Of "SEQUENCE_OF") [El true 0 "" [] "RANAP_IE" ""] (SpList "RANAP_ResetResourceList__resetResourceList_ies" ("RANAP_ResetResourceList__resetResourceList_ies", "_asn_ctx"));
  (* src/ranap/RANAP_ResetResourceList.c:121-146 *)
  De "RANAP_ResetResourceList" ["SEQUENCE"; "SEQUENCE"; "SEQUENCE"; "SEQUENCE"] (Of "SEQUENCE") [El false 0 "RANAP_ResetResourceList" ["resetResourceList_ies"] "RANAP_ResetResourceList:resetResourceList_ies_2" "A_SEQUENCE_OF"] (SpSeq "RANAP_ResetResourceList" ("RANAP_ResetResourceList", "_asn_ctx") [] 0 0);
  (* src/ranap/RANAP_ResidualBitErrorRatio.c:118-143 *)
  De "RANAP_ResidualBitErrorRatio" ["SEQUENCE"; "SEQUENCE"; "SEQUENCE"; "SEQUENCE"] (Of "SEQUENCE") [El false 0 "RANAP_ResidualBitErrorRatio" ["mantissa"] "NativeInteger" "long";
    El false 0 "RANAP_ResidualBitErrorRatio" ["exponent"] "NativeInteger" "long";
    El true 1 "RANAP_ResidualBitErrorRatio" ["iE_Extensions"] "RANAP_IE_Extensions" ""] (SpSeq "RANAP_ResidualBitErrorRatio" ("RANAP_ResidualBitErrorRatio", "_asn_ctx") [2] 1 0);
  (* src/ranap/RANAP_ResponseTime.c:143-167 *)
  De "RANAP_ResponseTime" ["NativeEnumerated"; "NativeEnumerated"; "NativeEnumerated"; "NativeEnumerated"] (Of "NativeEnumerated") [] (SpInt false);
  (* src/ranap/RANAP_SAC.c:142-166 *)
  De "RANAP_SAC" ["OCTET_STRING"; "OCTET_STRING"; "OCTET_STRING"; "OCTET_STRING"] (Cast "OCTET_STRING_t") [] (SpNone);
  (* src/ranap/RANAP_SAI.c:68-93 *)
  De "RANAP_SAI" ["SEQUENCE"; "SEQUENCE"; "SEQUENCE"; "SEQUENCE"] (Of "SEQUENCE") [El false 0 "RANAP_SAI" ["pLMNidentity"] "RANAP_PLMNidentity" "";
    El false 0 "RANAP_SAI" ["lAC"] "RANAP_LAC" "";
    El false 0 "RANAP_SAI" ["sAC"] "RANAP_SAC" "";
    El true 1 "RANAP_SAI" ["iE_Extensions"] "RANAP_IE_Extensions" ""] (SpSeq "RANAP_SAI" ("RANAP_SAI", "_asn_ctx") [3] 1 0);
  (* src/ranap/RANAP_SAPI.c:143-167 *)
  De "RANAP_SAPI" ["NativeEnumerated"; "NativeEnumerated"; "NativeEnumerated"; "NativeEnumerated"] (Of "NativeEnumerated") [] (SpInt false);
  (* src/ranap/RANAP_SDU-ErrorRatio.c:118-143 *)
  De "RANAP_SDU_ErrorRatio" ["SEQUENCE"; "SEQUENCE"; "SEQUENCE"; "SEQUENCE"] (Of "SEQUENCE") [El false 0 "RANAP_SDU_ErrorRatio" ["mantissa"] "NativeInteger" "long";
    El false 0 "RANAP_SDU_ErrorRatio" ["exponent"] "NativeInteger" "long";
    El true 1 "RANAP_SDU_ErrorRatio" ["iE_Extensions"] "RANAP_IE_Extensions" ""] (SpSeq "RANAP_SDU_ErrorRatio" ("RANAP_SDU_ErrorRatio", "_asn_ctx") [2] 1 0);
  (* src/ranap/RANAP_SDU-FormatInformationParameterItem.c:58-83 *)
  De "RANAP_SDU_FormatInformationParameterItem" ["SEQUENCE"; "SEQUENCE"; "SEQUENCE"; "SEQUENCE"] (Of "SEQUENCE") [El true 3 "RANAP_SDU_FormatInformationParameterItem" ["subflowSDU_Size"] "RANAP_SubflowSDU_Size" "";
    El true 2 "RANAP_SDU_FormatInformationParameterItem" ["rAB_SubflowCombinationBitRate"] "RANAP_RAB_SubflowCombinationBitRate" "";
    El true 1 "RANAP_SDU_FormatInformationParameterItem" ["iE_Extensions"] "RANAP_IE_Extensions" ""] (SpSeq "RANAP_SDU_FormatInformationParameterItem" ("RANAP_SDU_FormatInformationParameterItem", "_asn_ctx") [0; 1; 2] 3 0);
  (* src/ranap/RANAP_SDU-FormatInformationParameters.c:34-59 *)
  De "RANAP_SDU_FormatInformationParameters" ["SEQUENCE_OF"; "SEQUENCE_OF"; "SEQUENCE_OF"; "SEQUENCE_OF"] (Of "SEQUENCE_OF") [El true 0 "" [] "RANAP_SDU_FormatInformationParameterItem" ""] (SpList "RANAP_SDU_FormatInformationParameters" ("RANAP_SDU_FormatInformationParameters", "_asn_ctx"));
  (* src/ranap/RANAP_SDU-ParameterItem.c:78-103 *)
  De "RANAP_SDU_ParameterItem" ["SEQUENCE"; "SEQUENCE"; "SEQUENCE"; "SEQUENCE"] (Of "SEQUENCE") [El true 1 "RANAP_SDU_ParameterItem" ["sDU_ErrorRatio"] "RANAP_SDU_ErrorRatio" "";
    El false 0 "RANAP_SDU_ParameterItem" ["residualBitErrorRatio"] "RANAP_ResidualBitErrorRatio" "";
    El false 0 "RANAP_SDU_ParameterItem" ["deliveryOfErroneousSDU"] "RANAP_DeliveryOfErroneousSDU" "";
    El true 2 "RANAP_SDU_ParameterItem" ["sDU_FormatInformationParameters"] "RANAP_SDU_FormatInformationParameters" "";
    El true 1 "RANAP_SDU_ParameterItem" ["iE_Extensions"] "RANAP_IE_Extensions" ""] (SpSeq "RANAP_SDU_ParameterItem" ("RANAP_SDU_ParameterItem", "_asn_ctx") [0; 3; 4] 3 0);
  (* src/ranap/RANAP_SDU-Parameters.c:34-59 *)
  De "RANAP_SDU_Parameters" ["SEQUENCE_OF"; "SEQUENCE_OF"; "SEQUENCE_OF"; "SEQUENCE_OF"] (Of "SEQUENCE_OF") [El true 0 "" [] "RANAP_SDU_ParameterItem" ""] (SpList "RANAP_SDU_Parameters" ("RANAP_SDU_Parameters", "_asn_ctx"));
  (* src/ranap/RANAP_SNA-Access-Information.c:48-73 *)
  De "RANAP_SNA_Access_Information" ["SEQUENCE"; "SEQUENCE"; "SEQUENCE"; "SEQUENCE"] (Of "SEQUENCE") [El false 0 "RANAP_SNA_Access_Information" ["authorisedPLMNs"] "RANAP_AuthorisedPLMNs" "";
    El true 1 "RANAP_SNA_Access_Information" ["iE_Extensions"] "RANAP_IE_Extensions" ""] (SpSeq "RANAP_SNA_Access_Information" ("RANAP_SNA_Access_Information", "_asn_ctx") [1] 1 0);
  (* src/ranap/RANAP_SNAC.c:141-165 *)
  De "RANAP_SNAC" ["NativeInteger"; "NativeInteger"; "NativeInteger"; "NativeInteger"] (Cast "long") [] (SpNone);
  (* src/ranap/RANAP_SRB-ID.c:141-165 *)
  De "RANAP_SRB_ID" ["NativeInteger"; "NativeInteger"; "NativeInteger"; "NativeInteger"] (Cast "long") [] (SpNone);
  (* src/ranap/RANAP_SRB-TrCH-Mapping.c:34-59 *)
  De "RANAP_SRB_TrCH_Mapping" ["SEQUENCE_OF"; "SEQUENCE_OF"; "SEQUENCE_OF"; "SEQUENCE_OF"] (Of "SEQUENCE_OF") [El true 0 "" [] "RANAP_SRB_TrCH_MappingItem" ""] (SpList "RANAP_SRB_TrCH_Mapping" ("RANAP_SRB_TrCH_Mapping", "_asn_ctx"));
  (* src/ranap/RANAP_SRB-TrCH-MappingItem.c:58-83 *)
  De "RANAP_SRB_TrCH_MappingItem" ["SEQUENCE"; "SEQUENCE"; "SEQUENCE"; "SEQUENCE"] (Of "SEQUENCE") [El false 0 "RANAP_SRB_TrCH_MappingItem" ["sRB_ID"] "RANAP_SRB_ID" "";
    El false 0 "RANAP_SRB_TrCH_MappingItem" ["trCH_ID"] "RANAP_TrCH_ID" "";
    El true 1 "RANAP_SRB_TrCH_MappingItem" ["iE_Extensions"] "RANAP_IE_Extensions" ""] (SpSeq "RANAP_SRB_TrCH_MappingItem" ("RANAP_SRB_TrCH_MappingItem", "_asn_ctx") [2] 1 0);
  (* src/ranap/RANAP_SRNS-ContextRequest.c:66-92 *)
  De "RANAP_SRNS-ContextRequest:srnS_ContextRequest_ies_2" ["SEQUENCE_OF"; "SEQUENCE_OF"; "SEQUENCE_OF"; "SEQUENCE_OF"] (Of "SEQUENCE_OF") [El true 0 "" [] "RANAP_IE" ""] (SpList "RANAP_SRNS_ContextRequest__srnS_ContextRequest_ies" ("RANAP_SRNS_ContextRequest__srnS_ContextRequest_ies", "_asn_ctx"));
  (* src/ranap/RANAP_SRNS-ContextRequest.c:120-145 *)
  De "RANAP_SRNS_ContextRequest" ["SEQUENCE"; "SEQUENCE"; "SEQUENCE"; "SEQUENCE"] (Of "SEQUENCE") [El false 0 "RANAP_SRNS_ContextRequest" ["srnS_ContextRequest_ies"] "RANAP_SRNS-ContextRequest:srnS_ContextRequest_ies_2" "A_SEQUENCE_OF"] (SpSeq "RANAP_SRNS_ContextRequest" ("RANAP_SRNS_ContextRequest", "_asn_ctx") [] 0 0);
  (* src/ranap/RANAP_SRNS-ContextResponse.c:66-92 *)
  De "RANAP_SRNS-ContextResponse:srnS_ContextResponse_ies_2" ["SEQUENCE_OF"; "SEQUENCE_OF"; "SEQUENCE_OF"; "SEQUENCE_OF"] (Of "SEQUENCE_OF") [El true 0 "" [] "RANAP_IE" ""] (SpList "RANAP_SRNS_ContextResponse__srnS_ContextResponse_ies" ("RANAP_SRNS_ContextResponse__srnS_ContextResponse_ies", "_asn_ctx"));
  (* src/ranap/RANAP_SRNS-ContextResponse.c:120-145 *)
  De "RANAP_SRNS_ContextResponse" ["SEQUENCE"; "SEQUENCE"; "SEQUENCE"; "SEQUENCE"] (Of "SEQUENCE") [El false 0 "RANAP_SRNS_ContextResponse" ["srnS_ContextResponse_ies"] "RANAP_SRNS-ContextResponse:srnS_ContextResponse_ies_2" "A_SEQUENCE_OF"] (SpSeq "RANAP_SRNS_ContextResponse" ("RANAP_SRNS_ContextResponse", "_asn_ctx") [] 0 0);
  (* src/ranap/RANAP_SRNS-DataForwardCommand.c:66-92 *)
  De "RANAP_SRNS-DataForwardCommand:srnS_DataForwardCommand_ies_2" ["SEQUENCE_OF"; "SEQUENCE_OF"; "SEQUENCE_OF"; "SEQUENCE_OF"] (Of "SEQUENCE_OF") [El true 0 "" [] "RANAP_IE" ""] (SpList "RANAP_SRNS_DataForwardCommand__srnS_DataForwardCommand_ies" ("RANAP_SRNS_DataForwardCommand__srnS_DataForwardCommand_ies", "_asn_ctx"));
  (* src/ranap/RANAP_SRNS-DataForwardCommand.c:120-145 *)
  De "RANAP_SRNS_DataForwardCommand" ["SEQUENCE"; "SEQUENCE"; "SEQUENCE"; "SEQUENCE"] (Of "SEQUENCE") [El false 0 "RANAP_SRNS_DataForwardCommand" ["srnS_DataForwardCommand_ies"] "RANAP_SRNS-DataForwardCommand:srnS_DataForwardCommand_ies_2" "A_SEQUENCE_OF"] (SpSeq "RANAP_SRNS_DataForwardCommand" ("RANAP_SRNS_DataForwardCommand", "_asn_ctx") [] 0 0);
  (* src/ranap/RANAP_SRVCC-CSKeysRequest.c:66-92 *)
  De "RANAP_SRVCC-CSKeysRequest:srvcC_CSKeysRequest_ies_2" ["SEQUENCE_OF"; "SEQUENCE_OF"; "SEQUENCE_OF"; "SEQUENCE_OF"] (Of "SEQUENCE_OF") [El true 0 "" [] "RANAP_IE" ""] (SpList "RANAP_SRVCC_CSKeysRequest__srvcC_CSKeysRequest_ies" ("RANAP_SRVCC_CSKeysRequest__srvcC_CSKeysRequest_ies", "_asn_ctx"));
  (* src/ranap/RANAP_SRVCC-CSKeysRequest.c:120-145 *)
  De "RANAP_SRVCC_CSKeysRequest" ["SEQUENCE"; "SEQUENCE"; "SEQUENCE"; "SEQUENCE"] (Of "SEQUENCE") [El false 0 "RANAP_SRVCC_CSKeysRequest" ["srvcC_CSKeysRequest_ies"] "RANAP_SRVCC-CSKeysRequest:srvcC_CSKeysRequest_ies_2" "A_SEQUENCE_OF"] (SpSeq "RANAP_SRVCC_CSKeysRequest" ("RANAP_SRVCC_CSKeysRequest", "_asn_ctx") [] 0 0);
  (* src/ranap/RANAP_SRVCC-CSKeysResponse.c:66-92 *)
  De "RANAP_SRVCC-CSKeysResponse:srvcC_CSKeysResponse_ies_2" ["SEQUENCE_OF"; "SEQUENCE_OF"; "SEQUENCE_OF"; "SEQUENCE_OF"] (Of "SEQUENCE_OF") [El true 0 "" [] "RANAP_IE" ""] (SpList "RANAP_SRVCC_CSKeysResponse__srvcC_CSKeysResponse_ies" ("RANAP_SRVCC_CSKeysResponse__srvcC_CSKeysResponse_ies", "_asn_ctx"));
  (* src/ranap/RANAP_SRVCC-CSKeysResponse.c:120-145 *)
  De "RANAP_SRVCC_CSKeysResponse" ["SEQUENCE"; "SEQUENCE"; "SEQUENCE"; "SEQUENCE"] (Of "SEQUENCE") [El false 0 "RANAP_SRVCC_CSKeysResponse" ["srvcC_CSKeysResponse_ies"] "RANAP_SRVCC-CSKeysResponse:srvcC_CSKeysResponse_ies_2" "A_SEQUENCE_OF"] (SpSeq "RANAP_SRVCC_CSKeysResponse" ("RANAP_SRVCC_CSKeysResponse", "_asn_ctx") [] 0 0);
  (* src/ranap/RANAP_SRVCC-HO-Indication.c:143-167 *)
  De "RANAP_SRVCC_HO_Indication" ["NativeEnumerated"; "NativeEnumerated"; "NativeEnumerated"; "NativeEnumerated"] (Of "NativeEnumerated") [] (SpInt false);
  (* src/ranap/RANAP_SRVCC-Information.c:84-109 *)
  De "RANAP_SRVCC_Information" ["SEQUENCE"; "SEQUENCE"; "SEQUENCE"; "SEQUENCE"] (Of "SEQUENCE") [El false 0 "RANAP_SRVCC_Information" ["nonce"] "BIT_STRING" "BIT_STRING_t";
    El true 1 "RANAP_SRVCC_Information" ["iE_Extensions"] "RANAP_IE_Extensions" ""] (SpSeq "RANAP_SRVCC_Information" ("RANAP_SRVCC_Information", "_asn_ctx") [1] 1 0);
  (* src/ranap/RANAP_SRVCC-Operation-Possible.c:141-165 *)
  De "RANAP_SRVCC_Operation_Possible" ["NativeEnumerated"; "NativeEnumerated"; "NativeEnumerated"; "NativeEnumerated"] (Of "NativeEnumerated") [] (SpInt false);
  (* src/ranap/RANAP_SecurityModeCommand.c:66-92 *)
  De "RANAP_SecurityModeCommand:securityModeCommand_ies_2" ["SEQUENCE_OF"; "SEQUENCE_OF"; "SEQUENCE_OF"; "SEQUENCE_OF"] (Of "SEQUENCE_OF") [El true 0 "" [] "RANAP_IE" ""] (SpList "RANAP_SecurityModeCommand__securityModeCommand_ies" ("RANAP_SecurityModeCommand__securityModeCommand_ies", "_asn_ctx"));
  (* src/ranap/RANAP_SecurityModeCommand.c:120-145 *)
  De "RANAP_SecurityModeCommand" ["SEQUENCE"; "SEQUENCE"; "SEQUENCE"; "SEQUENCE"] (Of "SEQUENCE") [El false 0 "RANAP_SecurityModeCommand" ["securityModeCommand_ies"] "RANAP_SecurityModeCommand:securityModeCommand_ies_2" "A_SEQUENCE_OF"] (SpSeq "RANAP_SecurityModeCommand" ("RANAP_SecurityModeCommand", "_asn_ctx") [] 0 0);
  (* src/ranap/RANAP_SecurityModeComplete.c:66-92 *)
  De "RANAP_SecurityModeComplete:securityModeComplete_ies_2" ["SEQUENCE_OF"; "SEQUENCE_OF"; "SEQUENCE_OF"; "SEQUENCE_OF"] (Of "SEQUENCE_OF") [El true 0 "" [] "RANAP_IE" ""] (SpList "RANAP_SecurityModeComplete__securityModeComplete_ies" ("RANAP_SecurityModeComplete__securityModeComplete_ies", "_asn_ctx"));
  (* src/ranap/RANAP_SecurityModeComplete.c:120-145 *)
  De "RANAP_SecurityModeComplete" ["SEQUENCE"; "SEQUENCE"; "SEQUENCE"; "SEQUENCE"] (Of "SEQUENCE") [El false 0 "RANAP_SecurityModeComplete" ["securityModeComplete_ies"] "RANAP_SecurityModeComplete:securityModeComplete_ies_2" "A_SEQUENCE_OF"] (SpSeq "RANAP_SecurityModeComplete" ("RANAP_SecurityModeComplete", "_asn_ctx") [] 0 0);
  (* src/ranap/RANAP_SecurityModeReject.c:66-92 *)
  De "RANAP_SecurityModeReject:securityModeReject_ies_2" ["SEQUENCE_OF"; "SEQUENCE_OF"; "SEQUENCE_OF"; "SEQUENCE_OF"] (Of "SEQUENCE_OF") [El true 0 "" [] "RANAP_IE" ""] (SpList "RANAP_SecurityModeReject__securityModeReject_ies" ("RANAP_SecurityModeReject__securityModeReject_ies", "_asn_ctx"));
  (* src/ranap/RANAP_SecurityModeReject.c:120-145 *)
  De "RANAP_SecurityModeReject" ["SEQUENCE"; "SEQUENCE"; "SEQUENCE"; "SEQUENCE"] (Of "SEQUENCE") [El false 0 "RANAP_SecurityModeReject" ["securityModeReject_ies"] "RANAP_SecurityModeReject:securityModeReject_ies_2" "A_SEQUENCE_OF"] (SpSeq "RANAP_SecurityModeReject" ("RANAP_SecurityModeReject", "_asn_ctx") [] 0 0);
  (* src/ranap/RANAP_Service-Handover.c:145-169 *)
  De "RANAP_Service_Handover" ["NativeEnumerated"; "NativeEnumerated"; "NativeEnumerated"; "NativeEnumerated"] (Of "NativeEnumerated") [] (SpInt false);
  (* src/ranap/RANAP_Session-Re-establishment-Indicator.c:141-165 *)
  De "RANAP_Session_Re_establishment_Indicator" ["NativeEnumerated"; "NativeEnumerated"; "NativeEnumerated"; "NativeEnumerated"] (Of "NativeEnumerated") [] (SpInt false);
  (* src/ranap/RANAP_SessionUpdateID.c:141-165 *)
  De "RANAP_SessionUpdateID" ["NativeInteger"; "NativeInteger"; "NativeInteger"; "NativeInteger"] (Cast "long") [] (SpNone);
  (* src/ranap/RANAP_Shared-Network-Information.c:48-73 *)
  De "RANAP_Shared_Network_Information" ["SEQUENCE"; "SEQUENCE"; "SEQUENCE"; "SEQUENCE"] (Of "SEQUENCE") [El false 0 "RANAP_Shared_Network_Information" ["pLMNs_in_shared_network"] "RANAP_PLMNs_in_shared_network" "";
    El true 1 "RANAP_Shared_Network_Information" ["iE_Extensions"] "RANAP_IE_Extensions" ""] (SpSeq "RANAP_Shared_Network_Information" ("RANAP_Shared_Network_Information", "_asn_ctx") [1] 1 0);
  (* src/ranap/RANAP_SignallingIndication.c:141-165 *)
  De "RANAP_SignallingIndication" ["NativeEnumerated"; "NativeEnumerated"; "NativeEnumerated"; "NativeEnumerated"] (Of "NativeEnumerated") [] (SpInt false);
  (* src/ranap/RANAP_Source-ToTarget-TransparentContainer.c:119-143 *)
  De "RANAP_Source_ToTarget_TransparentContainer" ["OCTET_STRING"; "OCTET_STRING"; "OCTET_STRING"; "OCTET_STRING"] (Of "OCTET_STRING") [] (SpNone);
  (* src/ranap/RANAP_SourceBSS-ToTargetBSS-TransparentContainer.c:119-143 *)
  De "RANAP_SourceBSS_ToTargetBSS_TransparentContainer" ["OCTET_STRING"; "OCTET_STRING"; "OCTET_STRING"; "OCTET_STRING"] (Of "OCTET_STRING") [] (SpNone);
  (* src/ranap/RANAP_SourceCellID.c:49-72 *)
  De "RANAP_SourceCellID" ["CHOICE"; "CHOICE"; "CHOICE"; "CHOICE"] (Of "CHOICE") [El false 0 "RANAP_SourceCellID" ["choice"; "sourceUTRANCellID"] "RANAP_SourceUTRANCellID" "";
    El false 0 "RANAP_SourceCellID" ["choice"; "sourceGERANCellID"] "RANAP_CGI" ""] (SpChoice "RANAP_SourceCellID" ("RANAP_SourceCellID", "_asn_ctx") ("RANAP_SourceCellID", "present") ("RANAP_SourceCellID", "present"));
  (* src/ranap/RANAP_SourceID.c:49-72 *)
  De "RANAP_SourceID" ["CHOICE"; "CHOICE"; "CHOICE"; "CHOICE"] (Of "CHOICE") [El false 0 "RANAP_SourceID" ["choice"; "sourceRNC_ID"] "RANAP_SourceRNC_ID" "";
    El false 0 "RANAP_SourceID" ["choice"; "sAI"] "RANAP_SAI" ""] (SpChoice "RANAP_SourceID" ("RANAP_SourceID", "_asn_ctx") ("RANAP_SourceID", "present") ("RANAP_SourceID", "present"));
  (* src/ranap/RANAP_SourceRNC-ID.c:58-83 *)
  De "RANAP_SourceRNC_ID" ["SEQUENCE"; "SEQUENCE"; "SEQUENCE"; "SEQUENCE"] (Of "SEQUENCE") [El false 0 "RANAP_SourceRNC_ID" ["pLMNidentity"] "RANAP_PLMNidentity" "";
    El false 0 "RANAP_SourceRNC_ID" ["rNC_ID"] "RANAP_RNC_ID" "";
    El true 1 "RANAP_SourceRNC_ID" ["iE_Extensions"] "RANAP_IE_Extensions" ""] (SpSeq "RANAP_SourceRNC_ID" ("RANAP_SourceRNC_ID", "_asn_ctx") [2] 1 0);
  (* src/ranap/RANAP_SourceRNC-ToTargetRNC-TransparentContainer.c:158-183 *)
  De "RANAP_SourceRNC_ToTargetRNC_TransparentContainer" ["SEQUENCE"; "SEQUENCE"; "SEQUENCE"; "SEQUENCE"] (Of "SEQUENCE") [El false 0 "RANAP_SourceRNC_ToTargetRNC_TransparentContainer" ["rRC_Container"] "RANAP_RRC_Container" "";
    El false 0 "RANAP_SourceRNC_ToTargetRNC_TransparentContainer" ["numberOfIuInstances"] "RANAP_NumberOfIuInstances" "";
    El false 0 "RANAP_SourceRNC_ToTargetRNC_TransparentContainer" ["relocationType"] "RANAP_RelocationType" "";
    El true 10 "RANAP_SourceRNC_ToTargetRNC_TransparentContainer" ["chosenIntegrityProtectionAlgorithm"] "RANAP_ChosenIntegrityProtectionAlgorithm" "";
    El true 9 "RANAP_SourceRNC_ToTargetRNC_TransparentContainer" ["integrityProtectionKey"] "RANAP_IntegrityProtectionKey" "";
    El true 8 "RANAP_SourceRNC_ToTargetRNC_TransparentContainer" ["chosenEncryptionAlgorithForSignalling"] "RANAP_ChosenEncryptionAlgorithm" "";
    El true 7 "RANAP_SourceRNC_ToTargetRNC_TransparentContainer" ["cipheringKey"] "RANAP_EncryptionKey" "";
    El true 6 "RANAP_SourceRNC_ToTargetRNC_TransparentContainer" ["chosenEncryptionAlgorithForCS"] "RANAP_ChosenEncryptionAlgorithm" "";
    El true 5 "RANAP_SourceRNC_ToTargetRNC_TransparentContainer" ["chosenEncryptionAlgorithForPS"] "RANAP_ChosenEncryptionAlgorithm" "";
    El true 4 "RANAP_SourceRNC_ToTargetRNC_TransparentContainer" ["d_RNTI"] "RANAP_D_RNTI" "";
    El true 3 "RANAP_SourceRNC_ToTargetRNC_TransparentContainer" ["targetCellId"] "RANAP_TargetCellId" "";
    El true 2 "RANAP_SourceRNC_ToTargetRNC_TransparentContainer" ["rAB_TrCH_Mapping"] "RANAP_RAB_TrCH_Mapping" "";
    El true 1 "RANAP_SourceRNC_ToTargetRNC_TransparentContainer" ["iE_Extensions"] "RANAP_IE_Extensions" ""] (SpSeq "RANAP_SourceRNC_ToTargetRNC_TransparentContainer" ("RANAP_SourceRNC_ToTargetRNC_TransparentContainer", "_asn_ctx") [3; 4; 5; 6; 7; 8; 9; 10; 11; 12] 10 0);
  (* src/ranap/RANAP_SourceStatisticsDescriptor.c:143-167 *)
  De "RANAP_SourceStatisticsDescriptor" ["NativeEnumerated"; "NativeEnumerated"; "NativeEnumerated"; "NativeEnumerated"] (Of "NativeEnumerated") [] (SpInt false);
  (* src/ranap/RANAP_SourceUTRANCellID.c:58-83 *)
  De "RANAP_SourceUTRANCellID" ["SEQUENCE"; "SEQUENCE"; "SEQUENCE"; "SEQUENCE"] (Of "SEQUENCE") [El false 0 "RANAP_SourceUTRANCellID" ["pLMNidentity"] "RANAP_PLMNidentity" "";
    El false 0 "RANAP_SourceUTRANCellID" ["uTRANcellID"] "RANAP_TargetCellId" "";
    El true 1 "RANAP_SourceUTRANCellID" ["iE_Extensions"] "RANAP_IE_Extensions" ""] (SpSeq "RANAP_SourceUTRANCellID" ("RANAP_SourceUTRANCellID", "_asn_ctx") [2] 1 0);
  (* src/ranap/RANAP_SourceeNodeB-ToTargeteNodeB-TransparentContainer.c:119-143 *)
  De "RANAP_SourceeNodeB_ToTargeteNodeB_TransparentContainer" ["OCTET_STRING"; "OCTET_STRING"; "OCTET_STRING"; "OCTET_STRING"] (Of "OCTET_STRING") [] (SpNone);
  (* src/ranap/RANAP_SubflowSDU-Size.c:141-165 *)
  De "RANAP_SubflowSDU_Size" ["NativeInteger"; "NativeInteger"; "NativeInteger"; "NativeInteger"] (Cast "long") [] (SpNone);
  (* src/ranap/RANAP_SubscriberProfileIDforRFP.c:141-165 *)
  De "RANAP_SubscriberProfileIDforRFP" ["NativeInteger"; "NativeInteger"; "NativeInteger"; "NativeInteger"] (Cast "long") [] (SpNone);
  (* src/ranap/RANAP_SuccessfulOutcome.c:56-81 *)
  De "RANAP_SuccessfulOutcome" ["SEQUENCE"; "SEQUENCE"; "SEQUENCE"; "SEQUENCE"] (Of "SEQUENCE") [El false 0 "RANAP_SuccessfulOutcome" ["procedureCode"] "RANAP_ProcedureCode" "";
    El false 0 "RANAP_SuccessfulOutcome" ["criticality"] "RANAP_Criticality" "";
    El false 0 "RANAP_SuccessfulOutcome" ["value"] "ANY" ""] (SpSeq "RANAP_SuccessfulOutcome" ("RANAP_SuccessfulOutcome", "_asn_ctx") [] 0 0);
  (* src/ranap/RANAP_SupportedBitrate.c:141-165 *)
  De "RANAP_SupportedBitrate" ["NativeInteger"; "NativeInteger"; "NativeInteger"; "NativeInteger"] (Cast "long") [] (SpNone);
  (* src/ranap/RANAP_SupportedRAB-ParameterBitrateList.c:34-59 *)
  De "RANAP_SupportedRAB_ParameterBitrateList" ["SEQUENCE_OF"; "SEQUENCE_OF"; "SEQUENCE_OF"; "SEQUENCE_OF"] (Of "SEQUENCE_OF") [El true 0 "" [] "RANAP_SupportedBitrate" ""] (SpList "RANAP_SupportedRAB_ParameterBitrateList" ("RANAP_SupportedRAB_ParameterBitrateList", "_asn_ctx"));
  (* src/ranap/RANAP_TAC.c:142-166 *)
  De "RANAP_TAC" ["OCTET_STRING"; "OCTET_STRING"; "OCTET_STRING"; "OCTET_STRING"] (Cast "OCTET_STRING_t") [] (SpNone);
  (* src/ranap/RANAP_TAI.c:58-83 *)
  De "RANAP_TAI" ["SEQUENCE"; "SEQUENCE"; "SEQUENCE"; "SEQUENCE"] (Of "SEQUENCE") [El false 0 "RANAP_TAI" ["pLMNidentity"] "RANAP_PLMNidentity" "";
    El false 0 "RANAP_TAI" ["tAC"] "RANAP_TAC" "";
    El true 1 "RANAP_TAI" ["iE_Extensions"] "RANAP_IE_Extensions" ""] (SpSeq "RANAP_TAI" ("RANAP_TAI", "_asn_ctx") [2] 1 0);
  (* src/ranap/RANAP_TBCD-STRING.c:119-143 *)
  De "RANAP_TBCD_STRING" ["OCTET_STRING"; "OCTET_STRING"; "OCTET_STRING"; "OCTET_STRING"] (Of "OCTET_STRING") [] (SpNone);
  (* src/ranap/RANAP_TMGI.c:89-114 *)
  De "RANAP_TMGI" ["SEQUENCE"; "SEQUENCE"; "SEQUENCE"; "SEQUENCE"] (Of "SEQUENCE") [El false 0 "RANAP_TMGI" ["pLMNidentity"] "RANAP_PLMNidentity" "";
    El false 0 "RANAP_TMGI" ["serviceID"] "OCTET_STRING" "OCTET_STRING_t";
    El true 1 "RANAP_TMGI" ["iE_Extensions"] "RANAP_IE_Extensions" ""] (SpSeq "RANAP_TMGI" ("RANAP_TMGI", "_asn_ctx") [2] 1 0);
  (* src/ranap/RANAP_TMSI.c:142-166 *)
  De "RANAP_TMSI" ["OCTET_STRING"; "OCTET_STRING"; "OCTET_STRING"; "OCTET_STRING"] (Cast "OCTET_STRING_t") [] (SpNone);
  (* src/ranap/RANAP_TNLInformationEnhRelInfoReq.c:58-83 *)
  De "RANAP_TNLInformationEnhRelInfoReq" ["SEQUENCE"; "SEQUENCE"; "SEQUENCE"; "SEQUENCE"] (Of "SEQUENCE") [El false 0 "RANAP_TNLInformationEnhRelInfoReq" ["transportLayerAddress"] "RANAP_TransportLayerAddress" "";
    El false 0 "RANAP_TNLInformationEnhRelInfoReq" ["iuTransportAssociation"] "RANAP_IuTransportAssociation" "";
    El true 1 "RANAP_TNLInformationEnhRelInfoReq" ["iE_Extensions"] "RANAP_ProtocolExtensionContainer" ""] (SpSeq "RANAP_TNLInformationEnhRelInfoReq" ("RANAP_TNLInformationEnhRelInfoReq", "_asn_ctx") [2] 1 0);
  (* src/ranap/RANAP_TNLInformationEnhRelInfoRes.c:58-83 *)
  De "RANAP_TNLInformationEnhRelInfoRes" ["SEQUENCE"; "SEQUENCE"; "SEQUENCE"; "SEQUENCE"] (Of "SEQUENCE") [El false 0 "RANAP_TNLInformationEnhRelInfoRes" ["dl_forwardingTransportLayerAddress"] "RANAP_TransportLayerAddress" "";
    El false 0 "RANAP_TNLInformationEnhRelInfoRes" ["dl_forwardingTransportAssociation"] "RANAP_IuTransportAssociation" "";
    El true 1 "RANAP_TNLInformationEnhRelInfoRes" ["iE_Extensions"] "RANAP_ProtocolExtensionContainer" ""] (SpSeq "RANAP_TNLInformationEnhRelInfoRes" ("RANAP_TNLInformationEnhRelInfoRes", "_asn_ctx") [2] 1 0);
  (* src/ranap/RANAP_Target-ToSource-TransparentContainer.c:119-143 *)
  De "RANAP_Target_ToSource_TransparentContainer" ["OCTET_STRING"; "OCTET_STRING"; "OCTET_STRING"; "OCTET_STRING"] (Of "OCTET_STRING") [] (SpNone);
  (* src/ranap/RANAP_TargetBSS-ToSourceBSS-TransparentContainer.c:119-143 *)
  De "RANAP_TargetBSS_ToSourceBSS_TransparentContainer" ["OCTET_STRING"; "OCTET_STRING"; "OCTET_STRING"; "OCTET_STRING"] (Of "OCTET_STRING") [] (SpNone);
  (* src/ranap/RANAP_TargetCellId.c:141-165 *)
  De "RANAP_TargetCellId" ["NativeInteger"; "NativeInteger"; "NativeInteger"; "NativeInteger"] (Cast "long") [] (SpNone);
  (* src/ranap/RANAP_TargetENB-ID.c:68-93 *)
  De "RANAP_TargetENB_ID" ["SEQUENCE"; "SEQUENCE"; "SEQUENCE"; "SEQUENCE"] (Of "SEQUENCE") [El false 0 "RANAP_TargetENB_ID" ["pLMNidentity"] "RANAP_PLMNidentity" "";
    El false 0 "RANAP_TargetENB_ID" ["eNB_ID"] "RANAP_ENB_ID" "";
    El true 1 "RANAP_TargetENB_ID" ["iE_Extensions"] "RANAP_IE_Extensions" "";
    El false 0 "RANAP_TargetENB_ID" ["selectedTAI"] "RANAP_TAI" ""] (SpSeq "RANAP_TargetENB_ID" ("RANAP_TargetENB_ID", "_asn_ctx") [2] 1 0);
  (* src/ranap/RANAP_TargetID.c:59-82 *)
  De "RANAP_TargetID" ["CHOICE"; "CHOICE"; "CHOICE"; "CHOICE"] (Of "CHOICE") [El false 0 "RANAP_TargetID" ["choice"; "targetRNC_ID"] "RANAP_TargetRNC_ID" "";
    El false 0 "RANAP_TargetID" ["choice"; "cGI"] "RANAP_CGI" "";
    El false 0 "RANAP_TargetID" ["choice"; "targeteNB_ID"] "RANAP_TargetENB_ID" ""] (SpChoice "RANAP_TargetID" ("RANAP_TargetID", "_asn_ctx") ("RANAP_TargetID", "present") ("RANAP_TargetID", "present"));
  (* src/ranap/RANAP_TargetRNC-ID.c:68-93 *)
  De "RANAP_TargetRNC_ID" ["SEQUENCE"; "SEQUENCE"; "SEQUENCE"; "SEQUENCE"] (Of "SEQUENCE") [El false 0 "RANAP_TargetRNC_ID" ["lAI"] "RANAP_LAI" "";
    El true 1 "RANAP_TargetRNC_ID" ["rAC"] "RANAP_RAC" "";
    El false 0 "RANAP_TargetRNC_ID" ["rNC_ID"] "RANAP_RNC_ID" "";
    El true 1 "RANAP_TargetRNC_ID" ["iE_Extensions"] "RANAP_IE_Extensions" ""] (SpSeq "RANAP_TargetRNC_ID" ("RANAP_TargetRNC_ID", "_asn_ctx") [1; 3] 2 0);
  (* src/ranap/RANAP_TargetRNC-ToSourceRNC-TransparentContainer.c:58-83 *)
  De "RANAP_TargetRNC_ToSourceRNC_TransparentContainer" ["SEQUENCE"; "SEQUENCE"; "SEQUENCE"; "SEQUENCE"] (Of "SEQUENCE") [El false 0 "RANAP_TargetRNC_ToSourceRNC_TransparentContainer" ["rRC_Container"] "RANAP_RRC_Container" "";
    El true 2 "RANAP_TargetRNC_ToSourceRNC_TransparentContainer" ["d_RNTI"] "RANAP_D_RNTI" "";
    El true 1 "RANAP_TargetRNC_ToSourceRNC_TransparentContainer" ["iE_Extensions"] "RANAP_IE_Extensions" ""] (SpSeq "RANAP_TargetRNC_ToSourceRNC_TransparentContainer" ("RANAP_TargetRNC_ToSourceRNC_TransparentContainer", "_asn_ctx") [1; 2] 2 0);
  (* src/ranap/RANAP_TargeteNodeB-ToSourceeNodeB-TransparentContainer.c:119-143 *)
  De "RANAP_TargeteNodeB_ToSourceeNodeB_TransparentContainer" ["OCTET_STRING"; "OCTET_STRING"; "OCTET_STRING"; "OCTET_STRING"] (Of "OCTET_STRING") [] (SpNone);
  (* src/ranap/RANAP_TemporaryUE-ID.c:49-72 *)
  De "RANAP_TemporaryUE_ID" ["CHOICE"; "CHOICE"; "CHOICE"; "CHOICE"] (Of "CHOICE") [El false 0 "RANAP_TemporaryUE_ID" ["choice"; "tMSI"] "RANAP_TMSI" "";
    El false 0 "RANAP_TemporaryUE_ID" ["choice"; "p_TMSI"] "RANAP_P_TMSI" ""] (SpChoice "RANAP_TemporaryUE_ID" ("RANAP_TemporaryUE_ID", "_asn_ctx") ("RANAP_TemporaryUE_ID", "present") ("RANAP_TemporaryUE_ID", "present"));
  (* src/ranap/RANAP_Time-UE-StayedInCell-EnhancedGranularity.c:141-165 *)
  De "RANAP_Time_UE_StayedInCell_EnhancedGranularity" ["NativeInteger"; "NativeInteger"; "NativeInteger"; "NativeInteger"] (Cast "long") [] (SpNone);
  (* src/ranap/RANAP_Time-UE-StayedInCell.c:141-165 *)
  De "RANAP_Time_UE_StayedInCell" ["NativeInteger"; "NativeInteger"; "NativeInteger"; "NativeInteger"] (Cast "long") [] (SpNone);
  (* src/ranap/RANAP_TimeToMBMSDataTransfer.c:142-166 *)
  De "RANAP_TimeToMBMSDataTransfer" ["OCTET_STRING"; "OCTET_STRING"; "OCTET_STRING"; "OCTET_STRING"] (Cast "OCTET_STRING_t") [] (SpNone);
  (* src/ranap/RANAP_TimingDifferenceULDL.c:142-166 *)
  De "RANAP_TimingDifferenceULDL" ["OCTET_STRING"; "OCTET_STRING"; "OCTET_STRING"; "OCTET_STRING"] (Cast "OCTET_STRING_t") [] (SpNone);
  (* src/ranap/RANAP_TrCH-ID-List.c:34-59 *)
  De "RANAP_TrCH_ID_List" ["SEQUENCE_OF"; "SEQUENCE_OF"; "SEQUENCE_OF"; "SEQUENCE_OF"] (Of "SEQUENCE_OF") [El true 0 "" [] "RANAP_TrCH_ID" ""] (SpList "RANAP_TrCH_ID_List" ("RANAP_TrCH_ID_List", "_asn_ctx"));
  (* src/ranap/RANAP_TrCH-ID.c:68-93 *)
  De "RANAP_TrCH_ID" ["SEQUENCE"; "SEQUENCE"; "SEQUENCE"; "SEQUENCE"] (Of "SEQUENCE") [El true 4 "RANAP_TrCH_ID" ["dCH_ID"] "RANAP_DCH_ID" "";
    El true 3 "RANAP_TrCH_ID" ["dSCH_ID"] "RANAP_DSCH_ID" "";
    El true 2 "RANAP_TrCH_ID" ["uSCH_ID"] "RANAP_USCH_ID" "";
    El true 1 "RANAP_TrCH_ID" ["iE_Extensions"] "RANAP_IE_Extensions" ""] (SpSeq "RANAP_TrCH_ID" ("RANAP_TrCH_ID", "_asn_ctx") [0; 1; 2; 3] 4 0);
  (* src/ranap/RANAP_TraceDepth.c:145-169 *)
  De "RANAP_TraceDepth" ["NativeEnumerated"; "NativeEnumerated"; "NativeEnumerated"; "NativeEnumerated"] (Of "NativeEnumerated") [] (SpInt false);
  (* src/ranap/RANAP_TraceInformation.c:68-93 *)
  De "RANAP_TraceInformation" ["SEQUENCE"; "SEQUENCE"; "SEQUENCE"; "SEQUENCE"] (Of "SEQUENCE") [El false 0 "RANAP_TraceInformation" ["traceReference"] "RANAP_TraceReference" "";
    El false 0 "RANAP_TraceInformation" ["ue_identity"] "RANAP_UE_ID" "";
    El true 2 "RANAP_TraceInformation" ["tracePropagationParameters"] "RANAP_TracePropagationParameters" "";
    El true 1 "RANAP_TraceInformation" ["iE_Extensions"] "RANAP_IE_Extensions" ""] (SpSeq "RANAP_TraceInformation" ("RANAP_TraceInformation", "_asn_ctx") [2; 3] 2 0);
  (* src/ranap/RANAP_TracePropagationParameters.c:68-93 *)
  De "RANAP_TracePropagationParameters" ["SEQUENCE"; "SEQUENCE"; "SEQUENCE"; "SEQUENCE"] (Of "SEQUENCE") [El false 0 "RANAP_TracePropagationParameters" ["traceRecordingSessionReference"] "RANAP_TraceRecordingSessionReference" "";
    El false 0 "RANAP_TracePropagationParameters" ["traceDepth"] "RANAP_TraceDepth" "";
    El true 2 "RANAP_TracePropagationParameters" ["listOfInterfacesToTrace"] "RANAP_ListOfInterfacesToTrace" "";
    El true 1 "RANAP_TracePropagationParameters" ["iE_Extensions"] "RANAP_IE_Extensions" ""] (SpSeq "RANAP_TracePropagationParameters" ("RANAP_TracePropagationParameters", "_asn_ctx") [2; 3] 2 0);
  (* src/ranap/RANAP_TraceRecordingSessionInformation.c:58-83 *)
  De "RANAP_TraceRecordingSessionInformation" ["SEQUENCE"; "SEQUENCE"; "SEQUENCE"; "SEQUENCE"] (Of "SEQUENCE") [El false 0 "RANAP_TraceRecordingSessionInformation" ["traceReference"] "RANAP_TraceReference" "";
    El false 0 "RANAP_TraceRecordingSessionInformation" ["traceRecordingSessionReference"] "RANAP_TraceRecordingSessionReference" "";
    El true 1 "RANAP_TraceRecordingSessionInformation" ["iE_Extensions"] "RANAP_IE_Extensions" ""] (SpSeq "RANAP_TraceRecordingSessionInformation" ("RANAP_TraceRecordingSessionInformation", "_asn_ctx") [2] 1 0);
  (* src/ranap/RANAP_TraceRecordingSessionReference.c:141-165 *)
  De "RANAP_TraceRecordingSessionReference" ["NativeInteger"; "NativeInteger"; "NativeInteger"; "NativeInteger"] (Cast "long") [] (SpNone);
  (* src/ranap/RANAP_TraceReference.c:142-166 *)
  De "RANAP_TraceReference" ["OCTET_STRING"; "OCTET_STRING"; "OCTET_STRING"; "OCTET_STRING"] (Cast "OCTET_STRING_t") [] (SpNone);
  (* src/ranap/RANAP_TraceType.c:142-166 *)
  De "RANAP_TraceType" ["OCTET_STRING"; "OCTET_STRING"; "OCTET_STRING"; "OCTET_STRING"] (Cast "OCTET_STRING_t") [] (SpNone);
  (* src/ranap/RANAP_TrafficClass.c:147-171 *)
  De "RANAP_TrafficClass" ["NativeEnumerated"; "NativeEnumerated"; "NativeEnumerated"; "NativeEnumerated"] (Of "NativeEnumerated") [] (SpInt false);
  (* src/ranap/RANAP_TrafficHandlingPriority.c:141-165 *)
  De "RANAP_TrafficHandlingPriority" ["NativeInteger"; "NativeInteger"; "NativeInteger"; "NativeInteger"] (Cast "long") [] (SpNone);
  (* src/ranap/RANAP_TransferDelay.c:141-165 *)
  De "RANAP_TransferDelay" ["NativeInteger"; "NativeInteger"; "NativeInteger"; "NativeInteger"] (Cast "long") [] (SpNone);
  (* src/ranap/RANAP_TransportLayerAddress.c:147-171 *)
  De "RANAP_TransportLayerAddress" ["BIT_STRING"; "BIT_STRING"; "BIT_STRING"; "BIT_STRING"] (Cast "BIT_STRING_t") [] (SpNone);
  (* src/ranap/RANAP_TransportLayerInformation.c:58-83 *)
  De "RANAP_TransportLayerInformation" ["SEQUENCE"; "SEQUENCE"; "SEQUENCE"; "SEQUENCE"] (Of "SEQUENCE") [El false 0 "RANAP_TransportLayerInformation" ["transportLayerAddress"] "RANAP_TransportLayerAddress" "";
    El false 0 "RANAP_TransportLayerInformation" ["iuTransportAssociation"] "RANAP_IuTransportAssociation" "";
    El true 1 "RANAP_TransportLayerInformation" ["iE_Extensions"] "RANAP_ProtocolExtensionContainer" ""] (SpSeq "RANAP_TransportLayerInformation" ("RANAP_TransportLayerInformation", "_asn_ctx") [2] 1 0);
  (* src/ranap/RANAP_TriggerID.c:142-166 *)
  De "RANAP_TriggerID" ["OCTET_STRING"; "OCTET_STRING"; "OCTET_STRING"; "OCTET_STRING"] (Cast "OCTET_STRING_t") [] (SpNone);
  (* src/ranap/RANAP_TriggeringMessage.c:145-169 *)
  De "RANAP_TriggeringMessage" ["NativeEnumerated"; "NativeEnumerated"; "NativeEnumerated"; "NativeEnumerated"] (Of "NativeEnumerated") [] (SpInt false);
  (* src/ranap/RANAP_TunnelInformation.c:58-83 *)
  De "RANAP_TunnelInformation" ["SEQUENCE"; "SEQUENCE"; "SEQUENCE"; "SEQUENCE"] (Of "SEQUENCE") [El false 0 "RANAP_TunnelInformation" ["transportLayerAddress"] "RANAP_TransportLayerAddress" "";
    El true 2 "RANAP_TunnelInformation" ["uDP_Port_Number"] "RANAP_Port_Number" "";
    El true 1 "RANAP_TunnelInformation" ["iE_Extensions"] "RANAP_IE_Extensions" ""] (SpSeq "RANAP_TunnelInformation" ("RANAP_TunnelInformation", "_asn_ctx") [1; 2] 2 0);
  (* src/ranap/RANAP_TypeOfError.c:143-167 *)
  De "RANAP_TypeOfError" ["NativeEnumerated"; "NativeEnumerated"; "NativeEnumerated"; "NativeEnumerated"] (Of "NativeEnumerated") [] (SpInt false);
  (* src/ranap/RANAP_UE-AggregateMaximumBitRate.c:48-73 *)
  De "RANAP_UE_AggregateMaximumBitRate" ["SEQUENCE"; "SEQUENCE"; "SEQUENCE"; "SEQUENCE"] (Of "SEQUENCE") [El true 2 "RANAP_UE_AggregateMaximumBitRate" ["uE_AggregateMaximumBitRateDownlink"] "RANAP_UE_AggregateMaximumBitRateDownlink" "";
    El true 1 "RANAP_UE_AggregateMaximumBitRate" ["uE_AggregateMaximumBitRateUplink"] "RANAP_UE_AggregateMaximumBitRateUplink" ""] (SpSeq "RANAP_UE_AggregateMaximumBitRate" ("RANAP_UE_AggregateMaximumBitRate", "_asn_ctx") [0; 1] 2 0);
  (* src/ranap/RANAP_UE-AggregateMaximumBitRateDownlink.c:141-165 *)
  De "RANAP_UE_AggregateMaximumBitRateDownlink" ["NativeInteger"; "NativeInteger"; "NativeInteger"; "NativeInteger"] (Cast "long") [] (SpNone);
  (* src/ranap/RANAP_UE-AggregateMaximumBitRateUplink.c:141-165 *)
  De "RANAP_UE_AggregateMaximumBitRateUplink" ["NativeInteger"; "NativeInteger"; "NativeInteger"; "NativeInteger"] (Cast "long") [] (SpNone);
  (* src/ranap/RANAP_UE-History-Information.c:119-143 *)
  De "RANAP_UE_History_Information" ["OCTET_STRING"; "OCTET_STRING"; "OCTET_STRING"; "OCTET_STRING"] (Of "OCTET_STRING") [] (SpNone);
  (* src/ranap/RANAP_UE-ID.c:59-82 *)
  De "RANAP_UE_ID" ["CHOICE"; "CHOICE"; "CHOICE"; "CHOICE"] (Of "CHOICE") [El false 0 "RANAP_UE_ID" ["choice"; "imsi"] "RANAP_IMSI" "";
    El false 0 "RANAP_UE_ID" ["choice"; "imei"] "RANAP_IMEI" "";
    El false 0 "RANAP_UE_ID" ["choice"; "imeisv"] "RANAP_IMEISV" ""] (SpChoice "RANAP_UE_ID" ("RANAP_UE_ID", "_asn_ctx") ("RANAP_UE_ID", "present") ("RANAP_UE_ID", "present"));
  (* src/ranap/RANAP_UESBI-Iu.c:58-83 *)
  De "RANAP_UESBI_Iu" ["SEQUENCE"; "SEQUENCE"; "SEQUENCE"; "SEQUENCE"] (Of "SEQUENCE") [El true 3 "RANAP_UESBI_Iu" ["uESBI_IuA"] "RANAP_UESBI_IuA" "";
    El true 2 "RANAP_UESBI_Iu" ["uESBI_IuB"] "RANAP_UESBI_IuB" "";
    El true 1 "RANAP_UESBI_Iu" ["iE_Extensions"] "RANAP_IE_Extensions" ""] (SpSeq "RANAP_UESBI_Iu" ("RANAP_UESBI_Iu", "_asn_ctx") [0; 1; 2] 3 0);
  (* src/ranap/RANAP_UESBI-IuA.c:147-171 *)
  De "RANAP_UESBI_IuA" ["BIT_STRING"; "BIT_STRING"; "BIT_STRING"; "BIT_STRING"] (Cast "BIT_STRING_t") [] (SpNone);
  (* src/ranap/RANAP_UESBI-IuB.c:147-171 *)
  De "RANAP_UESBI_IuB" ["BIT_STRING"; "BIT_STRING"; "BIT_STRING"; "BIT_STRING"] (Cast "BIT_STRING_t") [] (SpNone);
  (* src/ranap/RANAP_UESpecificInformationIndication.c:66-92 *)
  De "RANAP_UESpecificInformationIndication:ueSpecificInformationIndication_ies_2" ["SEQUENCE_OF"; "SEQUENCE_OF"; "SEQUENCE_OF"; "SEQUENCE_OF"] (Of "SEQUENCE_OF") [El true 0 "" [] "RANAP_IE" ""] (SpList "RANAP_UESpecificInformationIndication__ueSpecificInformationIndication_ies" ("RANAP_UESpecificInformationIndication__ueSpecificInformationIndication_ies", "_asn_ctx"));
  (* src/ranap/RANAP_UESpecificInformationIndication.c:120-145 *)
  De "RANAP_UESpecificInformationIndication" ["SEQUENCE"; "SEQUENCE"; "SEQUENCE"; "SEQUENCE"] (Of "SEQUENCE") [El false 0 "RANAP_UESpecificInformationIndication" ["ueSpecificInformationIndication_ies"] "RANAP_UESpecificInformationIndication:ueSpecificInformationIndication_ies_2" "A_SEQUENCE_OF"] (SpSeq "RANAP_UESpecificInformationIndication" ("RANAP_UESpecificInformationIndication", "_asn_ctx") [] 0 0);
  (* src/ranap/RANAP_UL-GTP-PDU-SequenceNumber.c:141-165 *)
  De "RANAP_UL_GTP_PDU_SequenceNumber" ["NativeInteger"; "NativeInteger"; "NativeInteger"; "NativeInteger"] (Cast "long") [] (SpNone);
  (* src/ranap/RANAP_UL-N-PDU-SequenceNumber.c:141-165 *)
  De "RANAP_UL_N_PDU_SequenceNumber" ["NativeInteger"; "NativeInteger"; "NativeInteger"; "NativeInteger"] (Cast "long") [] (SpNone);
  (* src/ranap/RANAP_UP-ModeVersions.c:147-171 *)
  De "RANAP_UP_ModeVersions" ["BIT_STRING"; "BIT_STRING"; "BIT_STRING"; "BIT_STRING"] (Cast "BIT_STRING_t") [] (SpNone);
  (* src/ranap/RANAP_UPInformation.c:98-123 *)
  De "RANAP_UPInformation" ["SEQUENCE"; "SEQUENCE"; "SEQUENCE"; "SEQUENCE"] (Of "SEQUENCE") [El false 0 "RANAP_UPInformation" ["frameSeqNoUL"] "RANAP_FrameSequenceNumber" "";
    El false 0 "RANAP_UPInformation" ["frameSeqNoDL"] "RANAP_FrameSequenceNumber" "";
    El false 0 "RANAP_UPInformation" ["pdu14FrameSeqNoUL"] "RANAP_PDUType14FrameSequenceNumber" "";
    El false 0 "RANAP_UPInformation" ["pdu14FrameSeqNoDL"] "RANAP_PDUType14FrameSequenceNumber" "";
    El false 0 "RANAP_UPInformation" ["dataPDUType"] "RANAP_DataPDUType" "";
    El false 0 "RANAP_UPInformation" ["upinitialisationFrame"] "RANAP_UPInitialisationFrame" "";
    El true 1 "RANAP_UPInformation" ["iE_Extensions"] "RANAP_IE_Extensions" ""] (SpSeq "RANAP_UPInformation" ("RANAP_UPInformation", "_asn_ctx") [6] 1 0);
  (* src/ranap/RANAP_UPInitialisationFrame.c:119-143 *)
  De "RANAP_UPInitialisationFrame" ["OCTET_STRING"; "OCTET_STRING"; "OCTET_STRING"; "OCTET_STRING"] (Of "OCTET_STRING") [] (SpNone);
  (* src/ranap/RANAP_USCH-ID.c:141-165 *)
  De "RANAP_USCH_ID" ["NativeInteger"; "NativeInteger"; "NativeInteger"; "NativeInteger"] (Cast "long") [] (SpNone);
  (* src/ranap/RANAP_UTRAN-CellID.c:58-83 *)
  De "RANAP_UTRAN_CellID" ["SEQUENCE"; "SEQUENCE"; "SEQUENCE"; "SEQUENCE"] (Of "SEQUENCE") [El false 0 "RANAP_UTRAN_CellID" ["pLMNidentity"] "RANAP_PLMNidentity" "";
    El false 0 "RANAP_UTRAN_CellID" ["cellID"] "RANAP_TargetCellId" "";
    El true 1 "RANAP_UTRAN_CellID" ["iE_Extensions"] "RANAP_IE_Extensions" ""] (SpSeq "RANAP_UTRAN_CellID" ("RANAP_UTRAN_CellID", "_asn_ctx") [2] 1 0);
  (* src/ranap/RANAP_UeRadioCapabilityMatchRequest.c:66-92 *)
  De "RANAP_UeRadioCapabilityMatchRequest:ueRadioCapabilityMatchRequest_ies_2" ["SEQUENCE_OF"; "SEQUENCE_OF"; "SEQUENCE_OF"; "SEQUENCE_OF"] (Of "SEQUENCE_OF") [El true 0 "" [] "RANAP_IE" ""] (SpList "RANAP_UeRadioCapabilityMatchRequest__ueRadioCapabilityMatchRequest_ies" ("RANAP_UeRadioCapabilityMatchRequest__ueRadioCapabilityMatchRequest_ies", "_asn_ctx"));
  (* src/ranap/RANAP_UeRadioCapabilityMatchRequest.c:120-145 *)
  De "RANAP_UeRadioCapabilityMatchRequest" ["SEQUENCE"; "SEQUENCE"; "SEQUENCE"; "SEQUENCE"] (Of "SEQUENCE") [El false 0 "RANAP_UeRadioCapabilityMatchRequest" ["ueRadioCapabilityMatchRequest_ies"] "RANAP_UeRadioCapabilityMatchRequest:ueRadioCapabilityMatchRequest_ies_2" "A_SEQUENCE_OF"] (SpSeq "RANAP_UeRadioCapabilityMatchRequest" ("RANAP_UeRadioCapabilityMatchRequest", "_asn_ctx") [] 0 0);
  (* src/ranap/RANAP_UeRadioCapabilityMatchResponse.c:66-92 *)
  De "RANAP_UeRadioCapabilityMatchResponse:ueRadioCapabilityMatchResponse_ies_2" ["SEQUENCE_OF"; "SEQUENCE_OF"; "SEQUENCE_OF"; "SEQUENCE_OF"] (Of "SEQUENCE_OF") [El true 0 "" [] "RANAP_IE" ""] (SpList "RANAP_UeRadioCapabilityMatchResponse__ueRadioCapabilityMatchResponse_ies" ("RANAP_UeRadioCapabilityMatchResponse__ueRadioCapabilityMatchResponse_ies", "_asn_ctx"));
  (* src/ranap/RANAP_UeRadioCapabilityMatchResponse.c:120-145 *)
  De "RANAP_UeRadioCapabilityMatchResponse" ["SEQUENCE"; "SEQUENCE"; "SEQUENCE"; "SEQUENCE"] (Of "SEQUENCE") [El false 0 "RANAP_UeRadioCapabilityMatchResponse" ["ueRadioCapabilityMatchResponse_ies"] "RANAP_UeRadioCapabilityMatchResponse:ueRadioCapabilityMatchResponse_ies_2" "A_SEQUENCE_OF"] (SpSeq "RANAP_UeRadioCapabilityMatchResponse" ("RANAP_UeRadioCapabilityMatchResponse", "_asn_ctx") [] 0 0);
  (* src/ranap/RANAP_UnsuccessfulLinking-IEs-Value.c:58-83 *)
  De "RANAP_UnsuccessfulLinking_IEs_Value" ["SEQUENCE"; "SEQUENCE"; "SEQUENCE"; "SEQUENCE"] (Of "SEQUENCE") [El false 0 "RANAP_UnsuccessfulLinking_IEs_Value" ["tMGI"] "RANAP_TMGI" "";
    El false 0 "RANAP_UnsuccessfulLinking_IEs_Value" ["cause"] "RANAP_Cause" "";
    El true 1 "RANAP_UnsuccessfulLinking_IEs_Value" ["iE_Extensions"] "RANAP_ProtocolExtensionContainer" ""] (SpSeq "RANAP_UnsuccessfulLinking_IEs_Value" ("RANAP_UnsuccessfulLinking_IEs_Value", "_asn_ctx") [2] 1 0);
  (* src/ranap/RANAP_UnsuccessfulLinking-IEs.c:34-59 *)
  De "RANAP_UnsuccessfulLinking_IEs" ["SEQUENCE_OF"; "SEQUENCE_OF"; "SEQUENCE_OF"; "SEQUENCE_OF"] (Of "SEQUENCE_OF") [El true 0 "" [] "RANAP_UnsuccessfulLinking_IEs_Value" ""] (SpList "RANAP_UnsuccessfulLinking_IEs" ("RANAP_UnsuccessfulLinking_IEs", "_asn_ctx"));
  (* src/ranap/RANAP_UnsuccessfulOutcome.c:56-81 *)
  De "RANAP_UnsuccessfulOutcome" ["SEQUENCE"; "SEQUENCE"; "SEQUENCE"; "SEQUENCE"] (Of "SEQUENCE") [El false 0 "RANAP_UnsuccessfulOutcome" ["procedureCode"] "RANAP_ProcedureCode" "";
    El false 0 "RANAP_UnsuccessfulOutcome" ["criticality"] "RANAP_Criticality" "";
    El false 0 "RANAP_UnsuccessfulOutcome" ["value"] "ANY" ""] (SpSeq "RANAP_UnsuccessfulOutcome" ("RANAP_UnsuccessfulOutcome", "_asn_ctx") [] 0 0);
  (* src/ranap/RANAP_UnsuccessfullyTransmittedDataVolume.c:137-161 *)
  De "RANAP_UnsuccessfullyTransmittedDataVolume" ["NativeInteger"; "NativeInteger"; "NativeInteger"; "NativeInteger"] (NoLook) [] (SpInt true);
  (* src/ranap/RANAP_UplinkInformationExchangeFailure.c:66-92 *)
  De "RANAP_UplinkInformationExchangeFailure:uplinkInformationExchangeFailure_ies_2" ["SEQUENCE_OF"; "SEQUENCE_OF"; "SEQUENCE_OF"; "SEQUENCE_OF"] (Of "SEQUENCE_OF") [El true 0 "" [] "RANAP_IE" ""] (SpList "RANAP_UplinkInformationExchangeFailure__uplinkInformationExchangeFailure_ies" ("RANAP_UplinkInformationExchangeFailure__uplinkInformationExchangeFailure_ies", "_asn_ctx"));
  (* src/ranap/RANAP_UplinkInformationExchangeFailure.c:120-145 *)
  De "RANAP_UplinkInformationExchangeFailure" ["SEQUENCE"; "SEQUENCE"; "SEQUENCE"; "SEQUENCE"] (Of "SEQUENCE") [El false 0 "RANAP_UplinkInformationExchangeFailure" ["uplinkInformationExchangeFailure_ies"] "RANAP_UplinkInformationExchangeFailure:uplinkInformationExchangeFailure_ies_2" "A_SEQUENCE_OF"] (SpSeq "RANAP_UplinkInformationExchangeFailure" ("RANAP_UplinkInformationExchangeFailure", "_asn_ctx") [] 0 0);
  (* src/ranap/RANAP_UplinkInformationExchangeRequest.c:66-92 *)
  De "RANAP_UplinkInformationExchangeRequest:uplinkInformationExchangeRequest_ies_2" ["SEQUENCE_OF"; "SEQUENCE_OF"; "SEQUENCE_OF"; "SEQUENCE_OF"] (Of "SEQUENCE_OF") [El true 0 "" [] "RANAP_IE" ""] (SpList "RANAP_UplinkInformationExchangeRequest__uplinkInformationExchangeRequest_ies" ("RANAP_UplinkInformationExchangeRequest__uplinkInformationExchangeRequest_ies", "_asn_ctx"));
  (* src/ranap/RANAP_UplinkInformationExchangeRequest.c:120-145 *)
  De "RANAP_UplinkInformationExchangeRequest" ["SEQUENCE"; "SEQUENCE"; "SEQUENCE"; "SEQUENCE"] (Of "SEQUENCE") [El false 0 "RANAP_UplinkInformationExchangeRequest" ["uplinkInformationExchangeRequest_ies"] "RANAP_UplinkInformationExchangeRequest:uplinkInformationExchangeRequest_ies_2" "A_SEQUENCE_OF"] (SpSeq "RANAP_UplinkInformationExchangeRequest" ("RANAP_UplinkInformationExchangeRequest", "_asn_ctx") [] 0 0);
  (* src/ranap/RANAP_UplinkInformationExchangeResponse.c:66-92 *)
  De "RANAP_UplinkInformationExchangeResponse:uplinkInformationExchangeResponse_ies_2" ["SEQUENCE_OF"; "SEQUENCE_OF"; "SEQUENCE_OF"; "SEQUENCE_OF"] (Of "SEQUENCE_OF") [El true 0 "" [] "RANAP_IE" ""] (SpList "RANAP_UplinkInformationExchangeResponse__uplinkInformationExchangeResponse_ies" ("RANAP_UplinkInformationExchangeResponse__uplinkInformationExchangeResponse_ies", "_asn_ctx"));
  (* src/ranap/RANAP_UplinkInformationExchangeResponse.c:120-145 *)
  De "RANAP_UplinkInformationExchangeResponse" ["SEQUENCE"; "SEQUENCE"; "SEQUENCE"; "SEQUENCE"] (Of "SEQUENCE") [El false 0 "RANAP_UplinkInformationExchangeResponse" ["uplinkInformationExchangeResponse_ies"] "RANAP_UplinkInformationExchangeResponse:uplinkInformationExchangeResponse_ies_2" "A_SEQUENCE_OF"] (SpSeq "RANAP_UplinkInformationExchangeResponse" ("RANAP_UplinkInformationExchangeResponse", "_asn_ctx") [] 0 0);
  (* src/ranap/RANAP_UserPlaneInformation.c:58-83 *)
  De "RANAP_UserPlaneInformation" ["SEQUENCE"; "SEQUENCE"; "SEQUENCE"; "SEQUENCE"] (Of "SEQUENCE") [El false 0 "RANAP_UserPlaneInformation" ["userPlaneMode"] "RANAP_UserPlaneMode" "";
    El false 0 "RANAP_UserPlaneInformation" ["uP_ModeVersions"] "RANAP_UP_ModeVersions" "";
    El true 1 "RANAP_UserPlaneInformation" ["iE_Extensions"] "RANAP_ProtocolExtensionContainer" ""] (SpSeq "RANAP_UserPlaneInformation" ("RANAP_UserPlaneInformation", "_asn_ctx") [2] 1 0);
  (* src/ranap/RANAP_UserPlaneMode.c:143-167 *)
  De "RANAP_UserPlaneMode" ["NativeEnumerated"; "NativeEnumerated"; "NativeEnumerated"; "NativeEnumerated"] (Of "NativeEnumerated") [] (SpInt false);
  (* src/ranap/RANAP_VelocityEstimate.c:69-92 *)
  De "RANAP_VelocityEstimate" ["CHOICE"; "CHOICE"; "CHOICE"; "CHOICE"] (Of "CHOICE") [El false 0 "RANAP_VelocityEstimate" ["choice"; "horizontalVelocity"] "RANAP_HorizontalVelocity" "";
    El false 0 "RANAP_VelocityEstimate" ["choice"; "horizontalWithVerticalVelocity"] "RANAP_HorizontalWithVerticalVelocity" "";
    El false 0 "RANAP_VelocityEstimate" ["choice"; "horizontalVelocityWithUncertainty"] "RANAP_HorizontalVelocityWithUncertainty" "";
    El false 0 "RANAP_VelocityEstimate" ["choice"; "horizontalWithVeritcalVelocityAndUncertainty"] "RANAP_HorizontalWithVerticalVelocityAndUncertainty" ""] (SpChoice "RANAP_VelocityEstimate" ("RANAP_VelocityEstimate", "_asn_ctx") ("RANAP_VelocityEstimate", "present") ("RANAP_VelocityEstimate", "present"));
  (* src/ranap/RANAP_VerticalAccuracyCode.c:141-165 *)
  De "RANAP_VerticalAccuracyCode" ["NativeInteger"; "NativeInteger"; "NativeInteger"; "NativeInteger"] (Cast "long") [] (SpNone);
  (* src/ranap/RANAP_VerticalSpeedDirection.c:141-165 *)
  De "RANAP_VerticalSpeedDirection" ["NativeEnumerated"; "NativeEnumerated"; "NativeEnumerated"; "NativeEnumerated"] (Of "NativeEnumerated") [] (SpInt false);
  (* src/ranap/RANAP_VerticalVelocity.c:76-101 *)
  De "RANAP_VerticalVelocity" ["SEQUENCE"; "SEQUENCE"; "SEQUENCE"; "SEQUENCE"] (Of "SEQUENCE") [El false 0 "RANAP_VerticalVelocity" ["veritcalSpeed"] "NativeInteger" "long";
    El false 0 "RANAP_VerticalVelocity" ["veritcalSpeedDirection"] "RANAP_VerticalSpeedDirection" ""] (SpSeq "RANAP_VerticalVelocity" ("RANAP_VerticalVelocity", "_asn_ctx") [] 0 0);
  (* src/ranap/RANAP_VoiceSupportMatchIndicator.c:143-167 *)
  De "RANAP_VoiceSupportMatchIndicator" ["NativeEnumerated"; "NativeEnumerated"; "NativeEnumerated"; "NativeEnumerated"] (Of "NativeEnumerated") [] (SpInt false) ].

Definition rua_descs : list desc := [
  (* src/rua/RUA_Ansi-41-IDNNS.c:147-171 *)
  De "RUA_Ansi_41_IDNNS" ["BIT_STRING"; "BIT_STRING"; "BIT_STRING"; "BIT_STRING"] (Cast "BIT_STRING_t") [] (SpNone);
  (* src/rua/RUA_CN-DomainIndicator.c:141-165 *)
  De "RUA_CN_DomainIndicator" ["NativeEnumerated"; "NativeEnumerated"; "NativeEnumerated"; "NativeEnumerated"] (Of "NativeEnumerated") [] (SpInt false);
  (* src/rua/RUA_CSGMembershipStatus.c:143-167 *)
  De "RUA_CSGMembershipStatus" ["NativeEnumerated"; "NativeEnumerated"; "NativeEnumerated"; "NativeEnumerated"] (Of "NativeEnumerated") [] (SpInt false);
  (* src/rua/RUA_Cause.c:69-92 *)
  De "RUA_Cause" ["CHOICE"; "CHOICE"; "CHOICE"; "CHOICE"] (Of "CHOICE") [El false 0 "RUA_Cause" ["choice"; "radioNetwork"] "RUA_CauseRadioNetwork" "";
    El false 0 "RUA_Cause" ["choice"; "transport"] "RUA_CauseTransport" "";
    El false 0 "RUA_Cause" ["choice"; "protocol"] "RUA_CauseProtocol" "";
    El false 0 "RUA_Cause" ["choice"; "misc"] "RUA_CauseMisc" ""] (SpChoice "RUA_Cause" ("RUA_Cause", "_asn_ctx") ("RUA_Cause", "present") ("RUA_Cause", "present"));
  (* src/rua/RUA_CauseMisc.c:147-171 *)
  De "RUA_CauseMisc" ["NativeEnumerated"; "NativeEnumerated"; "NativeEnumerated"; "NativeEnumerated"] (Of "NativeEnumerated") [] (SpInt false);
  (* src/rua/RUA_CauseProtocol.c:153-177 *)
  De "RUA_CauseProtocol" ["NativeEnumerated"; "NativeEnumerated"; "NativeEnumerated"; "NativeEnumerated"] (Of "NativeEnumerated") [] (SpInt false);
  (* src/rua/RUA_CauseRadioNetwork.c:147-171 *)
  De "RUA_CauseRadioNetwork" ["NativeEnumerated"; "NativeEnumerated"; "NativeEnumerated"; "NativeEnumerated"] (Of "NativeEnumerated") [] (SpInt false);
  (* src/rua/RUA_CauseTransport.c:143-167 *)
  De "RUA_CauseTransport" ["NativeEnumerated"; "NativeEnumerated"; "NativeEnumerated"; "NativeEnumerated"] (Of "NativeEnumerated") [] (SpInt false);
  (* src/rua/RUA_Connect.c:66-92 *)
  De "RUA_Connect:connect_ies_2" ["SEQUENCE_OF"; "SEQUENCE_OF"; "SEQUENCE_OF"; "SEQUENCE_OF"] (Of "SEQUENCE_OF") [El true 0 "" [] "RUA_IE" ""] (SpList "RUA_Connect__connect_ies" ("RUA_Connect__connect_ies", "_asn_ctx"));
  (* src/rua/RUA_Connect.c:120-145 *)
  De "RUA_Connect" ["SEQUENCE"; "SEQUENCE"; "SEQUENCE"; "SEQUENCE"] (Of "SEQUENCE") [El false 0 "RUA_Connect" ["connect_ies"] "RUA_Connect:connect_ies_2" "A_SEQUENCE_OF"] (SpSeq "RUA_Connect" ("RUA_Connect", "_asn_ctx") [] 0 0);
  (* src/rua/RUA_ConnectionlessTransfer.c:66-92 *)
  De "RUA_ConnectionlessTransfer:connectionlessTransfer_ies_2" ["SEQUENCE_OF"; "SEQUENCE_OF"; "SEQUENCE_OF"; "SEQUENCE_OF"] (Of "SEQUENCE_OF") [El true 0 "" [] "RUA_IE" ""] (SpList "RUA_ConnectionlessTransfer__connectionlessTransfer_ies" ("RUA_ConnectionlessTransfer__connectionlessTransfer_ies", "_asn_ctx"));
  (* src/rua/RUA_ConnectionlessTransfer.c:120-145 *)
  De "RUA_ConnectionlessTransfer" ["SEQUENCE"; "SEQUENCE"; "SEQUENCE"; "SEQUENCE"] (Of "SEQUENCE") [El false 0 "RUA_ConnectionlessTransfer" ["connectionlessTransfer_ies"] "RUA_ConnectionlessTransfer:connectionlessTransfer_ies_2" "A_SEQUENCE_OF"] (SpSeq "RUA_ConnectionlessTransfer" ("RUA_ConnectionlessTransfer", "_asn_ctx") [] 0 0);
  (* src/rua/RUA_Context-ID.c:147-171 *)
  De "RUA_Context_ID" ["BIT_STRING"; "BIT_STRING"; "BIT_STRING"; "BIT_STRING"] (Cast "BIT_STRING_t") [] (SpNone);
  (* src/rua/RUA_Criticality.c:143-167 *)
  De "RUA_Criticality" ["NativeEnumerated"; "NativeEnumerated"; "NativeEnumerated"; "NativeEnumerated"] (Of "NativeEnumerated") [] (SpInt false);
  (* src/rua/RUA_CriticalityDiagnostics-IE-List-Value.c:68-93 *)
  De "RUA_CriticalityDiagnostics_IE_List_Value" ["SEQUENCE"; "SEQUENCE"; "SEQUENCE"; "SEQUENCE"] (Of "SEQUENCE") [El false 0 "RUA_CriticalityDiagnostics_IE_List_Value" ["iECriticality"] "RUA_Criticality" "";
    El false 0 "RUA_CriticalityDiagnostics_IE_List_Value" ["iE_ID"] "RUA_ProtocolIE_ID" "";
    El false 0 "RUA_CriticalityDiagnostics_IE_List_Value" ["typeOfError"] "RUA_TypeOfError" "";
    El true 1 "RUA_CriticalityDiagnostics_IE_List_Value" ["iE_Extensions"] "RUA_IE_Extensions" ""] (SpSeq "RUA_CriticalityDiagnostics_IE_List_Value" ("RUA_CriticalityDiagnostics_IE_List_Value", "_asn_ctx") [3] 1 0);
  (* src/rua/RUA_CriticalityDiagnostics-IE-List.c:34-59 *)
  De "RUA_CriticalityDiagnostics_IE_List" ["SEQUENCE_OF"; "SEQUENCE_OF"; "SEQUENCE_OF"; "SEQUENCE_OF"] (Of "SEQUENCE_OF") [El true 0 "" [] "RUA_CriticalityDiagnostics_IE_List_Value" ""] (SpList "RUA_CriticalityDiagnostics_IE_List" ("RUA_CriticalityDiagnostics_IE_List", "_asn_ctx"));
  (* src/rua/RUA_CriticalityDiagnostics.c:78-103 *)
  De "RUA_CriticalityDiagnostics" ["SEQUENCE"; "SEQUENCE"; "SEQUENCE"; "SEQUENCE"] (Of "SEQUENCE") [El true 5 "RUA_CriticalityDiagnostics" ["procedureCode"] "RUA_ProcedureCode" "";
    El true 4 "RUA_CriticalityDiagnostics" ["triggeringMessage"] "RUA_TriggeringMessage" "";
    El true 3 "RUA_CriticalityDiagnostics" ["procedureCriticality"] "RUA_Criticality" "";
    El true 2 "RUA_CriticalityDiagnostics" ["iEsCriticalityDiagnostics"] "RUA_CriticalityDiagnostics_IE_List" "";
    El true 1 "RUA_CriticalityDiagnostics" ["iE_Extensions"] "RUA_IE_Extensions" ""] (SpSeq "RUA_CriticalityDiagnostics" ("RUA_CriticalityDiagnostics", "_asn_ctx") [0; 1; 2; 3; 4] 5 0);
  (* src/rua/RUA_DirectTransfer.c:66-92 *)
  De "RUA_DirectTransfer:directTransfer_ies_2" ["SEQUENCE_OF"; "SEQUENCE_OF"; "SEQUENCE_OF"; "SEQUENCE_OF"] (Of "SEQUENCE_OF") [El true 0 "" [] "RUA_IE" ""] (SpList "RUA_DirectTransfer__directTransfer_ies" ("RUA_DirectTransfer__directTransfer_ies", "_asn_ctx"));
  (* src/rua/RUA_DirectTransfer.c:120-145 *)
  De "RUA_DirectTransfer" ["SEQUENCE"; "SEQUENCE"; "SEQUENCE"; "SEQUENCE"] (Of "SEQUENCE") [El false 0 "RUA_DirectTransfer" ["directTransfer_ies"] "RUA_DirectTransfer:directTransfer_ies_2" "A_SEQUENCE_OF"] (SpSeq "RUA_DirectTransfer" ("RUA_DirectTransfer", "_asn_ctx") [] 0 0);
  (* src/rua/RUA_Disconnect.c:66-92 *)
  De "RUA_Disconnect:disconnect_ies_2" ["SEQUENCE_OF"; "SEQUENCE_OF"; "SEQUENCE_OF"; "SEQUENCE_OF"] (Of "SEQUENCE_OF") [El true 0 "" [] "RUA_IE" ""] (SpList "RUA_Disconnect__disconnect_ies" ("RUA_Disconnect__disconnect_ies", "_asn_ctx"));
  (* src/rua/RUA_Disconnect.c:120-145 *)
  De "RUA_Disconnect" ["SEQUENCE"; "SEQUENCE"; "SEQUENCE"; "SEQUENCE"] (Of "SEQUENCE") [El false 0 "RUA_Disconnect" ["disconnect_ies"] "RUA_Disconnect:disconnect_ies_2" "A_SEQUENCE_OF"] (SpSeq "RUA_Disconnect" ("RUA_Disconnect", "_asn_ctx") [] 0 0);
  (* src/rua/RUA_ErrorIndication.c:66-92 *)
  De "RUA_ErrorIndication:errorIndication_ies_2" ["SEQUENCE_OF"; "SEQUENCE_OF"; "SEQUENCE_OF"; "SEQUENCE_OF"] (Of "SEQUENCE_OF") [El true 0 "" [] "RUA_IE" ""] (SpList "RUA_ErrorIndication__errorIndication_ies" ("RUA_ErrorIndication__errorIndication_ies", "_asn_ctx"));
  (* src/rua/RUA_ErrorIndication.c:120-145 *)
  De "RUA_ErrorIndication" ["SEQUENCE"; "SEQUENCE"; "SEQUENCE"; "SEQUENCE"] (Of "SEQUENCE") [El false 0 "RUA_ErrorIndication" ["errorIndication_ies"] "RUA_ErrorIndication:errorIndication_ies_2" "A_SEQUENCE_OF"] (SpSeq "RUA_ErrorIndication" ("RUA_ErrorIndication", "_asn_ctx") [] 0 0);
  (* src/rua/RUA_Establishment-Cause.c:143-167 *)
  De "RUA_Establishment_Cause" ["NativeEnumerated"; "NativeEnumerated"; "NativeEnumerated"; "NativeEnumerated"] (Of "NativeEnumerated") [] (SpInt false);
  (* src/rua/RUA_Gsm-map-IDNNS.c:42-68 *)
  De "RUA_Gsm-map-IDNNS:localPTMSI_3" ["SEQUENCE"; "SEQUENCE"; "SEQUENCE"; "SEQUENCE"] (Of "SEQUENCE") [El false 0 "RUA_Gsm_map_IDNNS__routingbasis__localPTMSI" ["routingparameter"] "RUA_RoutingParameter" ""] (SpSeq "RUA_Gsm_map_IDNNS__routingbasis__localPTMSI" ("RUA_Gsm_map_IDNNS__routingbasis__localPTMSI", "_asn_ctx") [] 0 0);
  (* src/rua/RUA_Gsm-map-IDNNS.c:97-123 *)
  De "RUA_Gsm-map-IDNNS:tMSIofsamePLMN_5" ["SEQUENCE"; "SEQUENCE"; "SEQUENCE"; "SEQUENCE"] (Of "SEQUENCE") [El false 0 "RUA_Gsm_map_IDNNS__routingbasis__tMSIofsamePLMN" ["routingparameter"] "RUA_RoutingParameter" ""] (SpSeq "RUA_Gsm_map_IDNNS__routingbasis__tMSIofsamePLMN" ("RUA_Gsm_map_IDNNS__routingbasis__tMSIofsamePLMN", "_asn_ctx") [] 0 0);
  (* src/rua/RUA_Gsm-map-IDNNS.c:152-178 *)
  De "RUA_Gsm-map-IDNNS:tMSIofdifferentPLMN_7" ["SEQUENCE"; "SEQUENCE"; "SEQUENCE"; "SEQUENCE"] (Of "SEQUENCE") [El false 0 "RUA_Gsm_map_IDNNS__routingbasis__tMSIofdifferentPLMN" ["routingparameter"] "RUA_RoutingParameter" ""] (SpSeq "RUA_Gsm_map_IDNNS__routingbasis__tMSIofdifferentPLMN" ("RUA_Gsm_map_IDNNS__routingbasis__tMSIofdifferentPLMN", "_asn_ctx") [] 0 0);
  (* src/rua/RUA_Gsm-map-IDNNS.c:207-233 *)
  De "RUA_Gsm-map-IDNNS:iMSIresponsetopaging_9" ["SEQUENCE"; "SEQUENCE"; "SEQUENCE"; "SEQUENCE"] (Of "SEQUENCE") [El false 0 "RUA_Gsm_map_IDNNS__routingbasis__iMSIresponsetopaging" ["routingparameter"] "RUA_RoutingParameter" ""] (SpSeq "RUA_Gsm_map_IDNNS__routingbasis__iMSIresponsetopaging" ("RUA_Gsm_map_IDNNS__routingbasis__iMSIresponsetopaging", "_asn_ctx") [] 0 0);
  (* src/rua/RUA_Gsm-map-IDNNS.c:262-288 *)
  De "RUA_Gsm-map-IDNNS:iMSIcauseUEinitiatedEvent_11" ["SEQUENCE"; "SEQUENCE"; "SEQUENCE"; "SEQUENCE"] (Of "SEQUENCE") [El false 0 "RUA_Gsm_map_IDNNS__routingbasis__iMSIcauseUEinitiatedEvent" ["routingparameter"] "RUA_RoutingParameter" ""] (SpSeq "RUA_Gsm_map_IDNNS__routingbasis__iMSIcauseUEinitiatedEvent" ("RUA_Gsm_map_IDNNS__routingbasis__iMSIcauseUEinitiatedEvent", "_asn_ctx") [] 0 0);
  (* src/rua/RUA_Gsm-map-IDNNS.c:317-343 *)
  De "RUA_Gsm-map-IDNNS:iMEI_13" ["SEQUENCE"; "SEQUENCE"; "SEQUENCE"; "SEQUENCE"] (Of "SEQUENCE") [El false 0 "RUA_Gsm_map_IDNNS__routingbasis__iMEI" ["routingparameter"] "RUA_RoutingParameter" ""] (SpSeq "RUA_Gsm_map_IDNNS__routingbasis__iMEI" ("RUA_Gsm_map_IDNNS__routingbasis__iMEI", "_asn_ctx") [] 0 0);
  (* src/rua/RUA_Gsm-map-IDNNS.c:372-398 *)
  De "RUA_Gsm-map-IDNNS:spare2_15" ["SEQUENCE"; "SEQUENCE"; "SEQUENCE"; "SEQUENCE"] (Of "SEQUENCE") [El false 0 "RUA_Gsm_map_IDNNS__routingbasis__spare2" ["routingparameter"] "RUA_RoutingParameter" ""] (SpSeq "RUA_Gsm_map_IDNNS__routingbasis__spare2" ("RUA_Gsm_map_IDNNS__routingbasis__spare2", "_asn_ctx") [] 0 0);
  (* src/rua/RUA_Gsm-map-IDNNS.c:427-453 *)
  De "RUA_Gsm-map-IDNNS:spare1_17" ["SEQUENCE"; "SEQUENCE"; "SEQUENCE"; "SEQUENCE"] (Of "SEQUENCE") [El false 0 "RUA_Gsm_map_IDNNS__routingbasis__spare1" ["routingparameter"] "RUA_RoutingParameter" ""] (SpSeq "RUA_Gsm_map_IDNNS__routingbasis__spare1" ("RUA_Gsm_map_IDNNS__routingbasis__spare1", "_asn_ctx") [] 0 0);
  (* src/rua/RUA_Gsm-map-IDNNS.c:549-573 *)
  De "RUA_Gsm-map-IDNNS:routingbasis_2" ["CHOICE"; "CHOICE"; "CHOICE"; "CHOICE"] (Of "CHOICE") [El false 0 "RUA_Gsm_map_IDNNS__routingbasis" ["choice"; "localPTMSI"] "RUA_Gsm-map-IDNNS:localPTMSI_3" "";
    El false 0 "RUA_Gsm_map_IDNNS__routingbasis" ["choice"; "tMSIofsamePLMN"] "RUA_Gsm-map-IDNNS:tMSIofsamePLMN_5" "";
    El false 0 "RUA_Gsm_map_IDNNS__routingbasis" ["choice"; "tMSIofdifferentPLMN"] "RUA_Gsm-map-IDNNS:tMSIofdifferentPLMN_7" "";
    El false 0 "RUA_Gsm_map_IDNNS__routingbasis" ["choice"; "iMSIresponsetopaging"] "RUA_Gsm-map-IDNNS:iMSIresponsetopaging_9" "";
    El false 0 "RUA_Gsm_map_IDNNS__routingbasis" ["choice"; "iMSIcauseUEinitiatedEvent"] "RUA_Gsm-map-IDNNS:iMSIcauseUEinitiatedEvent_11" "";
    El false 0 "RUA_Gsm_map_IDNNS__routingbasis" ["choice"; "iMEI"] "RUA_Gsm-map-IDNNS:iMEI_13" "";
    El false 0 "RUA_Gsm_map_IDNNS__routingbasis" ["choice"; "spare2"] "RUA_Gsm-map-IDNNS:spare2_15" "";
    El false 0 "RUA_Gsm_map_IDNNS__routingbasis" ["choice"; "spare1"] "RUA_Gsm-map-IDNNS:spare1_17" ""] (SpChoice "RUA_Gsm_map_IDNNS__routingbasis" ("RUA_Gsm_map_IDNNS__routingbasis", "_asn_ctx") ("RUA_Gsm_map_IDNNS__routingbasis", "present") ("RUA_Gsm_map_IDNNS__routingbasis", "present"));
  (* src/rua/RUA_Gsm-map-IDNNS.c:611-636 *)
  De "RUA_Gsm_map_IDNNS" ["SEQUENCE"; "SEQUENCE"; "SEQUENCE"; "SEQUENCE"] (Of "SEQUENCE") [El false 0 "RUA_Gsm_map_IDNNS" ["routingbasis"] "RUA_Gsm-map-IDNNS:routingbasis_2" "";
    El false 0 "RUA_Gsm_map_IDNNS" ["dummy"] "BOOLEAN" ""] (SpSeq "RUA_Gsm_map_IDNNS" ("RUA_Gsm_map_IDNNS", "_asn_ctx") [] 0 0);
  (* src/rua/RUA_IE-Extensions.c:34-59 *)
  De "RUA_IE_Extensions" ["SEQUENCE_OF"; "SEQUENCE_OF"; "SEQUENCE_OF"; "SEQUENCE_OF"] (Of "SEQUENCE_OF") [El true 0 "" [] "RUA_IE" ""] (SpList "RUA_IE_Extensions" ("RUA_IE_Extensions", "_asn_ctx"));
  (* src/rua/RUA_IE.c:56-81 *)
  De "RUA_IE" ["SEQUENCE"; "SEQUENCE"; "SEQUENCE"; "SEQUENCE"] (Of "SEQUENCE") [El false 0 "RUA_IE" ["id"] "RUA_ProtocolIE_ID" "";
    El false 0 "RUA_IE" ["criticality"] "RUA_Criticality" "";
    El false 0 "RUA_IE" ["value"] "ANY" ""] (SpSeq "RUA_IE" ("RUA_IE", "_asn_ctx") [] 0 0);
  (* src/rua/RUA_InitiatingMessage.c:56-81 *)
  De "RUA_InitiatingMessage" ["SEQUENCE"; "SEQUENCE"; "SEQUENCE"; "SEQUENCE"] (Of "SEQUENCE") [El false 0 "RUA_InitiatingMessage" ["procedureCode"] "RUA_ProcedureCode" "";
    El false 0 "RUA_InitiatingMessage" ["criticality"] "RUA_Criticality" "";
    El false 0 "RUA_InitiatingMessage" ["value"] "ANY" ""] (SpSeq "RUA_InitiatingMessage" ("RUA_InitiatingMessage", "_asn_ctx") [] 0 0);
  (* src/rua/RUA_IntraDomainNasNodeSelector.c:90-114 *)
  De "RUA_IntraDomainNasNodeSelector:cn_Type_4" ["CHOICE"; "CHOICE"; "CHOICE"; "CHOICE"] (Of "CHOICE") [El false 0 "RUA_IntraDomainNasNodeSelector__version__release99__cn_Type" ["choice"; "gsm_Map_IDNNS"] "RUA_Gsm_map_IDNNS" "";
    El false 0 "RUA_IntraDomainNasNodeSelector__version__release99__cn_Type" ["choice"; "ansi_41_IDNNS"] "RUA_Ansi_41_IDNNS" ""] (SpChoice "RUA_IntraDomainNasNodeSelector__version__release99__cn_Type" ("RUA_IntraDomainNasNodeSelector__version__release99__cn_Type", "_asn_ctx") ("RUA_IntraDomainNasNodeSelector__version__release99__cn_Type", "present") ("RUA_IntraDomainNasNodeSelector__version__release99__cn_Type", "present"));
  (* src/rua/RUA_IntraDomainNasNodeSelector.c:143-169 *)
  De "RUA_IntraDomainNasNodeSelector:release99_3" ["SEQUENCE"; "SEQUENCE"; "SEQUENCE"; "SEQUENCE"] (Of "SEQUENCE") [El false 0 "RUA_IntraDomainNasNodeSelector__version__release99" ["cn_Type"] "RUA_IntraDomainNasNodeSelector:cn_Type_4" ""] (SpSeq "RUA_IntraDomainNasNodeSelector__version__release99" ("RUA_IntraDomainNasNodeSelector__version__release99", "_asn_ctx") [] 0 0);
  (* src/rua/RUA_IntraDomainNasNodeSelector.c:198-224 *)
  De "RUA_IntraDomainNasNodeSelector:later_7" ["SEQUENCE"; "SEQUENCE"; "SEQUENCE"; "SEQUENCE"] (Of "SEQUENCE") [El false 0 "RUA_IntraDomainNasNodeSelector__version__later" ["futurecoding"] "BIT_STRING" "BIT_STRING_t"] (SpSeq "RUA_IntraDomainNasNodeSelector__version__later" ("RUA_IntraDomainNasNodeSelector__version__later", "_asn_ctx") [] 0 0);
  (* src/rua/RUA_IntraDomainNasNodeSelector.c:260-284 *)
  De "RUA_IntraDomainNasNodeSelector:version_2" ["CHOICE"; "CHOICE"; "CHOICE"; "CHOICE"] (Of "CHOICE") [El false 0 "RUA_IntraDomainNasNodeSelector__version" ["choice"; "release99"] "RUA_IntraDomainNasNodeSelector:release99_3" "";
    El false 0 "RUA_IntraDomainNasNodeSelector__version" ["choice"; "later"] "RUA_IntraDomainNasNodeSelector:later_7" ""] (SpChoice "RUA_IntraDomainNasNodeSelector__version" ("RUA_IntraDomainNasNodeSelector__version", "_asn_ctx") ("RUA_IntraDomainNasNodeSelector__version", "present") ("RUA_IntraDomainNasNodeSelector__version", "present"));
  (* src/rua/RUA_IntraDomainNasNodeSelector.c:312-337 *)
  De "RUA_IntraDomainNasNodeSelector" ["SEQUENCE"; "SEQUENCE"; "SEQUENCE"; "SEQUENCE"] (Of "SEQUENCE") [El false 0 "RUA_IntraDomainNasNodeSelector" ["version"] "RUA_IntraDomainNasNodeSelector:version_2" ""] (SpSeq "RUA_IntraDomainNasNodeSelector" ("RUA_IntraDomainNasNodeSelector", "_asn_ctx") [] 0 0);
  (* src/rua/RUA_Presence.c:143-167 *)
  De "RUA_Presence" ["NativeEnumerated"; "NativeEnumerated"; "NativeEnumerated"; "NativeEnumerated"] (Of "NativeEnumerated") [] (SpInt false);
  (* src/rua/RUA_PrivateIE-ID.c:79-102 *)
  De "RUA_PrivateIE_ID" ["CHOICE"; "CHOICE"; "CHOICE"; "CHOICE"] (Of "CHOICE") [El false 0 "RUA_PrivateIE_ID" ["choice"; "local"] "NativeInteger" "long";
    El false 0 "RUA_PrivateIE_ID" ["choice"; "global"] "OBJECT_IDENTIFIER" ""] (SpChoice "RUA_PrivateIE_ID" ("RUA_PrivateIE_ID", "_asn_ctx") ("RUA_PrivateIE_ID", "present") ("RUA_PrivateIE_ID", "present"));
  (* src/rua/RUA_PrivateMessage.c:66-92 *)
  De "RUA_PrivateMessage:privateMessage_ies_2" ["SEQUENCE_OF"; "SEQUENCE_OF"; "SEQUENCE_OF"; "SEQUENCE_OF"] (Of "SEQUENCE_OF") [El true 0 "" [] "RUA_IE" ""] (SpList "RUA_PrivateMessage__privateMessage_ies" ("RUA_PrivateMessage__privateMessage_ies", "_asn_ctx"));
  (* src/rua/RUA_PrivateMessage.c:120-145 *)
  De "RUA_PrivateMessage" ["SEQUENCE"; "SEQUENCE"; "SEQUENCE"; "SEQUENCE"] (Of "SEQUENCE") [El false 0 "RUA_PrivateMessage" ["privateMessage_ies"] "RUA_PrivateMessage:privateMessage_ies_2" "A_SEQUENCE_OF"] (SpSeq "RUA_PrivateMessage" ("RUA_PrivateMessage", "_asn_ctx") [] 0 0);
  (* src/rua/RUA_ProcedureCode.c:141-165 *)
  De "RUA_ProcedureCode" ["NativeInteger"; "NativeInteger"; "NativeInteger"; "NativeInteger"] (Cast "long") [] (SpNone);
  (* src/rua/RUA_ProtocolIE-ID.c:141-165 *)
  De "RUA_ProtocolIE_ID" ["NativeInteger"; "NativeInteger"; "NativeInteger"; "NativeInteger"] (Cast "long") [] (SpNone);
  (* src/rua/RUA_RANAP-Message.c:119-143 *)
  De "RUA_RANAP_Message" ["OCTET_STRING"; "OCTET_STRING"; "OCTET_STRING"; "OCTET_STRING"] (Of "OCTET_STRING") [] (SpNone);
  (* src/rua/RUA_RUA-PDU.c:59-82 *)
  De "RUA_RUA_PDU" ["CHOICE"; "CHOICE"; "CHOICE"; "CHOICE"] (Of "CHOICE") [El false 0 "RUA_RUA_PDU" ["choice"; "initiatingMessage"] "RUA_InitiatingMessage" "";
    El false 0 "RUA_RUA_PDU" ["choice"; "successfulOutcome"] "RUA_SuccessfulOutcome" "";
    El false 0 "RUA_RUA_PDU" ["choice"; "unsuccessfulOutcome"] "RUA_UnsuccessfulOutcome" ""] (SpChoice "RUA_RUA_PDU" ("RUA_RUA_PDU", "_asn_ctx") ("RUA_RUA_PDU", "present") ("RUA_RUA_PDU", "present"));
  (* src/rua/RUA_RoutingParameter.c:147-171 *)
  De "RUA_RoutingParameter" ["BIT_STRING"; "BIT_STRING"; "BIT_STRING"; "BIT_STRING"] (Cast "BIT_STRING_t") [] (SpNone);
  (* src/rua/RUA_SuccessfulOutcome.c:56-81 *)
  De "RUA_SuccessfulOutcome" ["SEQUENCE"; "SEQUENCE"; "SEQUENCE"; "SEQUENCE"] (Of "SEQUENCE") [El false 0 "RUA_SuccessfulOutcome" ["procedureCode"] "RUA_ProcedureCode" "";
    El false 0 "RUA_SuccessfulOutcome" ["criticality"] "RUA_Criticality" "";
    El false 0 "RUA_SuccessfulOutcome" ["value"] "ANY" ""] (SpSeq "RUA_SuccessfulOutcome" ("RUA_SuccessfulOutcome", "_asn_ctx") [] 0 0);
  (* src/rua/RUA_TriggeringMessage.c:143-167 *)
  De "RUA_TriggeringMessage" ["NativeEnumerated"; "NativeEnumerated"; "NativeEnumerated"; "NativeEnumerated"] (Of "NativeEnumerated") [] (SpInt false);
  (* src/rua/RUA_TypeOfError.c:143-167 *)
  De "RUA_TypeOfError" ["NativeEnumerated"; "NativeEnumerated"; "NativeEnumerated"; "NativeEnumerated"] (Of "NativeEnumerated") [] (SpInt false);
  (* src/rua/RUA_UnsuccessfulOutcome.c:56-81 *)
  De "RUA_UnsuccessfulOutcome" ["SEQUENCE"; "SEQUENCE"; "SEQUENCE"; "SEQUENCE"] (Of "SEQUENCE") [El false 0 "RUA_UnsuccessfulOutcome" ["procedureCode"] "RUA_ProcedureCode" "";
    El false 0 "RUA_UnsuccessfulOutcome" ["criticality"] "RUA_Criticality" "";
    El false 0 "RUA_UnsuccessfulOutcome" ["value"] "ANY" ""] (SpSeq "RUA_UnsuccessfulOutcome" ("RUA_UnsuccessfulOutcome", "_asn_ctx") [] 0 0) ].

Definition hnbap_descs : list desc := [
  (* src/hnbap/HNBAP_Access-stratum-release-indicator.c:151-175 *)
  De "HNBAP_Access_stratum_release_indicator" ["NativeEnumerated"; "NativeEnumerated"; "NativeEnumerated"; "NativeEnumerated"] (Of "NativeEnumerated") [] (SpInt false);
  (* src/hnbap/HNBAP_AccessResult.c:143-167 *)
  De "HNBAP_AccessResult" ["NativeEnumerated"; "NativeEnumerated"; "NativeEnumerated"; "NativeEnumerated"] (Of "NativeEnumerated") [] (SpInt false);
  (* src/hnbap/HNBAP_AdditionalNeighbourInfoList.c:34-59 *)
  De "HNBAP_AdditionalNeighbourInfoList" ["SEQUENCE_OF"; "SEQUENCE_OF"; "SEQUENCE_OF"; "SEQUENCE_OF"] (Of "SEQUENCE_OF") [El true 0 "" [] "HNBAP_HNBConfigInfo" ""] (SpList "HNBAP_AdditionalNeighbourInfoList" ("HNBAP_AdditionalNeighbourInfoList", "_asn_ctx"));
  (* src/hnbap/HNBAP_AltitudeAndDirection.c:172-197 *)
  De "HNBAP_AltitudeAndDirection:directionOfAltitude_2" ["NativeEnumerated"; "NativeEnumerated"; "NativeEnumerated"; "NativeEnumerated"] (Of "NativeEnumerated") [] (SpInt false);
  (* src/hnbap/HNBAP_AltitudeAndDirection.c:235-260 *)
  De "HNBAP_AltitudeAndDirection" ["SEQUENCE"; "SEQUENCE"; "SEQUENCE"; "SEQUENCE"] (Of "SEQUENCE") [El false 0 "HNBAP_AltitudeAndDirection" ["directionOfAltitude"] "HNBAP_AltitudeAndDirection:directionOfAltitude_2" "";
    El false 0 "HNBAP_AltitudeAndDirection" ["altitude"] "NativeInteger" "long"] (SpSeq "HNBAP_AltitudeAndDirection" ("HNBAP_AltitudeAndDirection", "_asn_ctx") [] 0 0);
  (* src/hnbap/HNBAP_BackoffTimer.c:141-165 *)
  De "HNBAP_BackoffTimer" ["NativeInteger"; "NativeInteger"; "NativeInteger"; "NativeInteger"] (Cast "long") [] (SpNone);
  (* src/hnbap/HNBAP_BindingID.c:142-166 *)
  De "HNBAP_BindingID" ["OCTET_STRING"; "OCTET_STRING"; "OCTET_STRING"; "OCTET_STRING"] (Cast "OCTET_STRING_t") [] (SpNone);
  (* src/hnbap/HNBAP_CELL-FACHMobilitySupport.c:141-165 *)
  De "HNBAP_CELL_FACHMobilitySupport" ["NativeEnumerated"; "NativeEnumerated"; "NativeEnumerated"; "NativeEnumerated"] (Of "NativeEnumerated") [] (SpInt false);
  (* src/hnbap/HNBAP_CGI.c:68-93 *)
  De "HNBAP_CGI" ["SEQUENCE"; "SEQUENCE"; "SEQUENCE"; "SEQUENCE"] (Of "SEQUENCE") [El false 0 "HNBAP_CGI" ["pLMNidentity"] "HNBAP_PLMNidentity" "";
    El false 0 "HNBAP_CGI" ["lAC"] "HNBAP_LAC" "";
    El false 0 "HNBAP_CGI" ["cI"] "HNBAP_CI" "";
    El true 1 "HNBAP_CGI" ["iE_Extensions"] "HNBAP_IE_Extensions" ""] (SpSeq "HNBAP_CGI" ("HNBAP_CGI", "_asn_ctx") [3] 1 0);
  (* src/hnbap/HNBAP_CI.c:142-166 *)
  De "HNBAP_CI" ["OCTET_STRING"; "OCTET_STRING"; "OCTET_STRING"; "OCTET_STRING"] (Cast "OCTET_STRING_t") [] (SpNone);
  (* src/hnbap/HNBAP_CN-DomainIndicator.c:141-165 *)
  De "HNBAP_CN_DomainIndicator" ["NativeEnumerated"; "NativeEnumerated"; "NativeEnumerated"; "NativeEnumerated"] (Of "NativeEnumerated") [] (SpInt false);
  (* src/hnbap/HNBAP_CSG-Capability.c:143-167 *)
  De "HNBAP_CSG_Capability" ["NativeEnumerated"; "NativeEnumerated"; "NativeEnumerated"; "NativeEnumerated"] (Of "NativeEnumerated") [] (SpInt false);
  (* src/hnbap/HNBAP_CSG-ID.c:147-171 *)
  De "HNBAP_CSG_ID" ["BIT_STRING"; "BIT_STRING"; "BIT_STRING"; "BIT_STRING"] (Cast "BIT_STRING_t") [] (SpNone);
  (* src/hnbap/HNBAP_CSGMembershipStatus.c:143-167 *)
  De "HNBAP_CSGMembershipStatus" ["NativeEnumerated"; "NativeEnumerated"; "NativeEnumerated"; "NativeEnumerated"] (Of "NativeEnumerated") [] (SpInt false);
  (* src/hnbap/HNBAP_CSGMembershipUpdate.c:66-92 *)
  De "HNBAP_CSGMembershipUpdate:csgMembershipUpdate_ies_2" ["SEQUENCE_OF"; "SEQUENCE_OF"; "SEQUENCE_OF"; "SEQUENCE_OF"] (Of "SEQUENCE_OF") [El true 0 "" [] "HNBAP_IE" ""] (SpList "HNBAP_CSGMembershipUpdate__csgMembershipUpdate_ies" ("HNBAP_CSGMembershipUpdate__csgMembershipUpdate_ies", "_asn_ctx"));
  (* src/hnbap/HNBAP_CSGMembershipUpdate.c:120-145 *)
  De "HNBAP_CSGMembershipUpdate" ["SEQUENCE"; "SEQUENCE"; "SEQUENCE"; "SEQUENCE"] (Of "SEQUENCE") [El false 0 "HNBAP_CSGMembershipUpdate" ["csgMembershipUpdate_ies"] "HNBAP_CSGMembershipUpdate:csgMembershipUpdate_ies_2" "A_SEQUENCE_OF"] (SpSeq "HNBAP_CSGMembershipUpdate" ("HNBAP_CSGMembershipUpdate", "_asn_ctx") [] 0 0);
  (* src/hnbap/HNBAP_Cause.c:69-92 *)
  De "HNBAP_Cause" ["CHOICE"; "CHOICE"; "CHOICE"; "CHOICE"] (Of "CHOICE") [El false 0 "HNBAP_Cause" ["choice"; "radioNetwork"] "HNBAP_CauseRadioNetwork" "";
    El false 0 "HNBAP_Cause" ["choice"; "transport"] "HNBAP_CauseTransport" "";
    El false 0 "HNBAP_Cause" ["choice"; "protocol"] "HNBAP_CauseProtocol" "";
    El false 0 "HNBAP_Cause" ["choice"; "misc"] "HNBAP_CauseMisc" ""] (SpChoice "HNBAP_Cause" ("HNBAP_Cause", "_asn_ctx") ("HNBAP_Cause", "present") ("HNBAP_Cause", "present"));
  (* src/hnbap/HNBAP_CauseMisc.c:147-171 *)
  De "HNBAP_CauseMisc" ["NativeEnumerated"; "NativeEnumerated"; "NativeEnumerated"; "NativeEnumerated"] (Of "NativeEnumerated") [] (SpInt false);
  (* src/hnbap/HNBAP_CauseProtocol.c:153-177 *)
  De "HNBAP_CauseProtocol" ["NativeEnumerated"; "NativeEnumerated"; "NativeEnumerated"; "NativeEnumerated"] (Of "NativeEnumerated") [] (SpInt false);
  (* src/hnbap/HNBAP_CauseRadioNetwork.c:171-195 *)
  De "HNBAP_CauseRadioNetwork" ["NativeEnumerated"; "NativeEnumerated"; "NativeEnumerated"; "NativeEnumerated"] (Of "NativeEnumerated") [] (SpInt false);
  (* src/hnbap/HNBAP_CauseTransport.c:143-167 *)
  De "HNBAP_CauseTransport" ["NativeEnumerated"; "NativeEnumerated"; "NativeEnumerated"; "NativeEnumerated"] (Of "NativeEnumerated") [] (SpInt false);
  (* src/hnbap/HNBAP_CellIdentity.c:147-171 *)
  De "HNBAP_CellIdentity" ["BIT_STRING"; "BIT_STRING"; "BIT_STRING"; "BIT_STRING"] (Cast "BIT_STRING_t") [] (SpNone);
  (* src/hnbap/HNBAP_ConfigurationInformation.c:49-72 *)
  De "HNBAP_ConfigurationInformation" ["CHOICE"; "CHOICE"; "CHOICE"; "CHOICE"] (Of "CHOICE") [El false 0 "HNBAP_ConfigurationInformation" ["choice"; "provided"] "HNBAP_HNBConfigurationInformationProvided" "";
    El false 0 "HNBAP_ConfigurationInformation" ["choice"; "missing"] "HNBAP_HNBConfigurationInformationMissing" ""] (SpChoice "HNBAP_ConfigurationInformation" ("HNBAP_ConfigurationInformation", "_asn_ctx") ("HNBAP_ConfigurationInformation", "present") ("HNBAP_ConfigurationInformation", "present"));
  (* src/hnbap/HNBAP_Context-ID.c:147-171 *)
  De "HNBAP_Context_ID" ["BIT_STRING"; "BIT_STRING"; "BIT_STRING"; "BIT_STRING"] (Cast "BIT_STRING_t") [] (SpNone);
  (* src/hnbap/HNBAP_Criticality.c:143-167 *)
  De "HNBAP_Criticality" ["NativeEnumerated"; "NativeEnumerated"; "NativeEnumerated"; "NativeEnumerated"] (Of "NativeEnumerated") [] (SpInt false);
  (* src/hnbap/HNBAP_CriticalityDiagnostics-IE-List-Value.c:68-93 *)
  De "HNBAP_CriticalityDiagnostics_IE_List_Value" ["SEQUENCE"; "SEQUENCE"; "SEQUENCE"; "SEQUENCE"] (Of "SEQUENCE") [El false 0 "HNBAP_CriticalityDiagnostics_IE_List_Value" ["iECriticality"] "HNBAP_Criticality" "";
    El false 0 "HNBAP_CriticalityDiagnostics_IE_List_Value" ["iE_ID"] "HNBAP_ProtocolIE_ID" "";
    El false 0 "HNBAP_CriticalityDiagnostics_IE_List_Value" ["typeOfError"] "HNBAP_TypeOfError" "";
    El true 1 "HNBAP_CriticalityDiagnostics_IE_List_Value" ["iE_Extensions"] "HNBAP_IE_Extensions" ""] (SpSeq "HNBAP_CriticalityDiagnostics_IE_List_Value" ("HNBAP_CriticalityDiagnostics_IE_List_Value", "_asn_ctx") [3] 1 0);
  (* src/hnbap/HNBAP_CriticalityDiagnostics-IE-List.c:34-59 *)
  De "HNBAP_CriticalityDiagnostics_IE_List" ["SEQUENCE_OF"; "SEQUENCE_OF"; "SEQUENCE_OF"; "SEQUENCE_OF"] (Of "SEQUENCE_OF") [El true 0 "" [] "HNBAP_CriticalityDiagnostics_IE_List_Value" ""] (SpList "HNBAP_CriticalityDiagnostics_IE_List" ("HNBAP_CriticalityDiagnostics_IE_List", "_asn_ctx"));
  (* src/hnbap/HNBAP_CriticalityDiagnostics.c:78-103 *)
  De "HNBAP_CriticalityDiagnostics" ["SEQUENCE"; "SEQUENCE"; "SEQUENCE"; "SEQUENCE"] (Of "SEQUENCE") [El true 5 "HNBAP_CriticalityDiagnostics" ["procedureCode"] "HNBAP_ProcedureCode" "";
    El true 4 "HNBAP_CriticalityDiagnostics" ["triggeringMessage"] "HNBAP_TriggeringMessage" "";
    El true 3 "HNBAP_CriticalityDiagnostics" ["procedureCriticality"] "HNBAP_Criticality" "";
    El true 2 "HNBAP_CriticalityDiagnostics" ["iEsCriticalityDiagnostics"] "HNBAP_CriticalityDiagnostics_IE_List" "";
    El true 1 "HNBAP_CriticalityDiagnostics" ["iE_Extensions"] "HNBAP_IE_Extensions" ""] (SpSeq "HNBAP_CriticalityDiagnostics" ("HNBAP_CriticalityDiagnostics", "_asn_ctx") [0; 1; 2; 3; 4] 5 0);
  (* src/hnbap/HNBAP_ESN.c:147-171 *)
  De "HNBAP_ESN" ["BIT_STRING"; "BIT_STRING"; "BIT_STRING"; "BIT_STRING"] (Cast "BIT_STRING_t") [] (SpNone);
  (* src/hnbap/HNBAP_ErrorIndication.c:66-92 *)
  De "HNBAP_ErrorIndication:errorIndication_ies_2" ["SEQUENCE_OF"; "SEQUENCE_OF"; "SEQUENCE_OF"; "SEQUENCE_OF"] (Of "SEQUENCE_OF") [El true 0 "" [] "HNBAP_IE" ""] (SpList "HNBAP_ErrorIndication__errorIndication_ies" ("HNBAP_ErrorIndication__errorIndication_ies", "_asn_ctx"));
  (* src/hnbap/HNBAP_ErrorIndication.c:120-145 *)
  De "HNBAP_ErrorIndication" ["SEQUENCE"; "SEQUENCE"; "SEQUENCE"; "SEQUENCE"] (Of "SEQUENCE") [El false 0 "HNBAP_ErrorIndication" ["errorIndication_ies"] "HNBAP_ErrorIndication:errorIndication_ies_2" "A_SEQUENCE_OF"] (SpSeq "HNBAP_ErrorIndication" ("HNBAP_ErrorIndication", "_asn_ctx") [] 0 0);
  (* src/hnbap/HNBAP_GTP-TEI.c:142-166 *)
  De "HNBAP_GTP_TEI" ["OCTET_STRING"; "OCTET_STRING"; "OCTET_STRING"; "OCTET_STRING"] (Cast "OCTET_STRING_t") [] (SpNone);
  (* src/hnbap/HNBAP_GeographicalCoordinates.c:202-227 *)
  De "HNBAP_GeographicalCoordinates:latitudeSign_2" ["NativeEnumerated"; "NativeEnumerated"; "NativeEnumerated"; "NativeEnumerated"] (Of "NativeEnumerated") [] (SpInt false);
  (* src/hnbap/HNBAP_GeographicalCoordinates.c:287-312 *)
  De "HNBAP_GeographicalCoordinates" ["SEQUENCE"; "SEQUENCE"; "SEQUENCE"; "SEQUENCE"] (Of "SEQUENCE") [El false 0 "HNBAP_GeographicalCoordinates" ["latitudeSign"] "HNBAP_GeographicalCoordinates:latitudeSign_2" "";
    El false 0 "HNBAP_GeographicalCoordinates" ["latitude"] "NativeInteger" "long";
    El false 0 "HNBAP_GeographicalCoordinates" ["longitude"] "NativeInteger" "long";
    El true 1 "HNBAP_GeographicalCoordinates" ["iE_Extensions"] "HNBAP_IE_Extensions" ""] (SpSeq "HNBAP_GeographicalCoordinates" ("HNBAP_GeographicalCoordinates", "_asn_ctx") [3] 1 0);
  (* src/hnbap/HNBAP_GeographicalLocation.c:58-83 *)
  De "HNBAP_GeographicalLocation" ["SEQUENCE"; "SEQUENCE"; "SEQUENCE"; "SEQUENCE"] (Of "SEQUENCE") [El false 0 "HNBAP_GeographicalLocation" ["geographicalCoordinates"] "HNBAP_GeographicalCoordinates" "";
    El false 0 "HNBAP_GeographicalLocation" ["altitudeAndDirection"] "HNBAP_AltitudeAndDirection" "";
    El true 1 "HNBAP_GeographicalLocation" ["iE_Extensions"] "HNBAP_IE_Extensions" ""] (SpSeq "HNBAP_GeographicalLocation" ("HNBAP_GeographicalLocation", "_asn_ctx") [2] 1 0);
  (* src/hnbap/HNBAP_HNB-Cell-Access-Mode.c:145-169 *)
  De "HNBAP_HNB_Cell_Access_Mode" ["NativeEnumerated"; "NativeEnumerated"; "NativeEnumerated"; "NativeEnumerated"] (Of "NativeEnumerated") [] (SpInt false);
  (* src/hnbap/HNBAP_HNB-Cell-Identifier.c:58-83 *)
  De "HNBAP_HNB_Cell_Identifier" ["SEQUENCE"; "SEQUENCE"; "SEQUENCE"; "SEQUENCE"] (Of "SEQUENCE") [El false 0 "HNBAP_HNB_Cell_Identifier" ["pLMNidentity"] "HNBAP_PLMNidentity" "";
    El false 0 "HNBAP_HNB_Cell_Identifier" ["cellIdentity"] "HNBAP_CellIdentity" "";
    El true 1 "HNBAP_HNB_Cell_Identifier" ["iE_Extensions"] "HNBAP_IE_Extensions" ""] (SpSeq "HNBAP_HNB_Cell_Identifier" ("HNBAP_HNB_Cell_Identifier", "_asn_ctx") [2] 1 0);
  (* src/hnbap/HNBAP_HNB-GWResponse.c:59-82 *)
  De "HNBAP_HNB_GWResponse" ["CHOICE"; "CHOICE"; "CHOICE"; "CHOICE"] (Of "CHOICE") [El false 0 "HNBAP_HNB_GWResponse" ["choice"; "hNB"] "HNBAP_HNBConfigInfo" "";
    El false 0 "HNBAP_HNB_GWResponse" ["choice"; "macroRNC"] "HNBAP_RNC_ID" "";
    El false 0 "HNBAP_HNB_GWResponse" ["choice"; "unknownU_RNTIIndication"] "HNBAP_UnknownU_RNTIIndication" ""] (SpChoice "HNBAP_HNB_GWResponse" ("HNBAP_HNB_GWResponse", "_asn_ctx") ("HNBAP_HNB_GWResponse", "present") ("HNBAP_HNB_GWResponse", "present"));
  (* src/hnbap/HNBAP_HNB-Identity-Info.c:142-166 *)
  De "HNBAP_HNB_Identity_Info" ["OCTET_STRING"; "OCTET_STRING"; "OCTET_STRING"; "OCTET_STRING"] (Cast "OCTET_STRING_t") [] (SpNone);
  (* src/hnbap/HNBAP_HNB-Identity.c:48-73 *)
  De "HNBAP_HNB_Identity" ["SEQUENCE"; "SEQUENCE"; "SEQUENCE"; "SEQUENCE"] (Of "SEQUENCE") [El false 0 "HNBAP_HNB_Identity" ["hNB_Identity_Info"] "HNBAP_HNB_Identity_Info" "";
    El true 1 "HNBAP_HNB_Identity" ["iE_Extensions"] "HNBAP_IE_Extensions" ""] (SpSeq "HNBAP_HNB_Identity" ("HNBAP_HNB_Identity", "_asn_ctx") [1] 1 0);
  (* src/hnbap/HNBAP_HNB-Location-Information.c:58-83 *)
  De "HNBAP_HNB_Location_Information" ["SEQUENCE"; "SEQUENCE"; "SEQUENCE"; "SEQUENCE"] (Of "SEQUENCE") [El true 3 "HNBAP_HNB_Location_Information" ["macroCoverageInfo"] "HNBAP_MacroCoverageInformation" "";
    El true 2 "HNBAP_HNB_Location_Information" ["geographicalCoordinates"] "HNBAP_GeographicalLocation" "";
    El true 1 "HNBAP_HNB_Location_Information" ["iE_Extensions"] "HNBAP_IE_Extensions" ""] (SpSeq "HNBAP_HNB_Location_Information" ("HNBAP_HNB_Location_Information", "_asn_ctx") [0; 1; 2] 3 0);
  (* src/hnbap/HNBAP_HNB-RNL-Identity.c:39-62 *)
  De "HNBAP_HNB_RNL_Identity" ["CHOICE"; "CHOICE"; "CHOICE"; "CHOICE"] (Of "CHOICE") [El false 0 "HNBAP_HNB_RNL_Identity" ["choice"; "hNB_Identity_as_Cell_Identifier"] "HNBAP_HNB_Cell_Identifier" ""] (SpChoice "HNBAP_HNB_RNL_Identity" ("HNBAP_HNB_RNL_Identity", "_asn_ctx") ("HNBAP_HNB_RNL_Identity", "present") ("HNBAP_HNB_RNL_Identity", "present"));
  (* src/hnbap/HNBAP_HNBAP-PDU.c:59-82 *)
  De "HNBAP_HNBAP_PDU" ["CHOICE"; "CHOICE"; "CHOICE"; "CHOICE"] (Of "CHOICE") [El false 0 "HNBAP_HNBAP_PDU" ["choice"; "initiatingMessage"] "HNBAP_InitiatingMessage" "";
    El false 0 "HNBAP_HNBAP_PDU" ["choice"; "successfulOutcome"] "HNBAP_SuccessfulOutcome" "";
    El false 0 "HNBAP_HNBAP_PDU" ["choice"; "unsuccessfulOutcome"] "HNBAP_UnsuccessfulOutcome" ""] (SpChoice "HNBAP_HNBAP_PDU" ("HNBAP_HNBAP_PDU", "_asn_ctx") ("HNBAP_HNBAP_PDU", "present") ("HNBAP_HNBAP_PDU", "present"));
  (* src/hnbap/HNBAP_HNBCapacity.c:141-165 *)
  De "HNBAP_HNBCapacity" ["NativeInteger"; "NativeInteger"; "NativeInteger"; "NativeInteger"] (Cast "long") [] (SpNone);
  (* src/hnbap/HNBAP_HNBConfigInfo.c:58-83 *)
  De "HNBAP_HNBConfigInfo" ["SEQUENCE"; "SEQUENCE"; "SEQUENCE"; "SEQUENCE"] (Of "SEQUENCE") [El false 0 "HNBAP_HNBConfigInfo" ["hnb_RNL_Identity"] "HNBAP_HNB_RNL_Identity" "";
    El false 0 "HNBAP_HNBConfigInfo" ["configurationInformation"] "HNBAP_ConfigurationInformation" "";
    El true 1 "HNBAP_HNBConfigInfo" ["iE_Extensions"] "HNBAP_IE_Extensions" ""] (SpSeq "HNBAP_HNBConfigInfo" ("HNBAP_HNBConfigInfo", "_asn_ctx") [2] 1 0);
  (* src/hnbap/HNBAP_HNBConfigTransferRequest.c:66-92 *)
  De "HNBAP_HNBConfigTransferRequest:hnbConfigTransferRequest_ies_2" ["SEQUENCE_OF"; "SEQUENCE_OF"; "SEQUENCE_OF"; "SEQUENCE_OF"] (Of "SEQUENCE_OF") [El true 0 "" [] "HNBAP_IE" ""] (SpList "HNBAP_HNBConfigTransferRequest__hnbConfigTransferRequest_ies" ("HNBAP_HNBConfigTransferRequest__hnbConfigTransferRequest_ies", "_asn_ctx"));
  (* src/hnbap/HNBAP_HNBConfigTransferRequest.c:120-145 *)
  De "HNBAP_HNBConfigTransferRequest" ["SEQUENCE"; "SEQUENCE"; "SEQUENCE"; "SEQUENCE"] (Of "SEQUENCE") [El false 0 "HNBAP_HNBConfigTransferRequest" ["hnbConfigTransferRequest_ies"] "HNBAP_HNBConfigTransferRequest:hnbConfigTransferRequest_ies_2" "A_SEQUENCE_OF"] (SpSeq "HNBAP_HNBConfigTransferRequest" ("HNBAP_HNBConfigTransferRequest", "_asn_ctx") [] 0 0);
  (* src/hnbap/HNBAP_HNBConfigTransferResponse.c:66-92 *)
  De "HNBAP_HNBConfigTransferResponse:hnbConfigTransferResponse_ies_2" ["SEQUENCE_OF"; "SEQUENCE_OF"; "SEQUENCE_OF"; "SEQUENCE_OF"] (Of "SEQUENCE_OF") [El true 0 "" [] "HNBAP_IE" ""] (SpList "HNBAP_HNBConfigTransferResponse__hnbConfigTransferResponse_ies" ("HNBAP_HNBConfigTransferResponse__hnbConfigTransferResponse_ies", "_asn_ctx"));
  (* src/hnbap/HNBAP_HNBConfigTransferResponse.c:120-145 *)
  De "HNBAP_HNBConfigTransferResponse" ["SEQUENCE"; "SEQUENCE"; "SEQUENCE"; "SEQUENCE"] (Of "SEQUENCE") [El false 0 "HNBAP_HNBConfigTransferResponse" ["hnbConfigTransferResponse_ies"] "HNBAP_HNBConfigTransferResponse:hnbConfigTransferResponse_ies_2" "A_SEQUENCE_OF"] (SpSeq "HNBAP_HNBConfigTransferResponse" ("HNBAP_HNBConfigTransferResponse", "_asn_ctx") [] 0 0);
  (* src/hnbap/HNBAP_HNBConfigurationInformationMissing.c:48-73 *)
  De "HNBAP_HNBConfigurationInformationMissing" ["SEQUENCE"; "SEQUENCE"; "SEQUENCE"; "SEQUENCE"] (Of "SEQUENCE") [El false 0 "HNBAP_HNBConfigurationInformationMissing" ["cause"] "HNBAP_Cause" "";
    El true 1 "HNBAP_HNBConfigurationInformationMissing" ["iE_Extensions"] "HNBAP_IE_Extensions" ""] (SpSeq "HNBAP_HNBConfigurationInformationMissing" ("HNBAP_HNBConfigurationInformationMissing", "_asn_ctx") [1] 1 0);
  (* src/hnbap/HNBAP_HNBConfigurationInformationProvided.c:78-103 *)
  De "HNBAP_HNBConfigurationInformationProvided" ["SEQUENCE"; "SEQUENCE"; "SEQUENCE"; "SEQUENCE"] (Of "SEQUENCE") [El true 2 "HNBAP_HNBConfigurationInformationProvided" ["psc"] "HNBAP_PSC" "";
    El true 1 "HNBAP_HNBConfigurationInformationProvided" ["cSG_ID"] "HNBAP_CSG_ID" "";
    El false 0 "HNBAP_HNBConfigurationInformationProvided" ["hNB_Cell_Access_Mode"] "HNBAP_HNB_Cell_Access_Mode" "";
    El false 0 "HNBAP_HNBConfigurationInformationProvided" ["iurh_Signalling_TNL_AddressList"] "HNBAP_Iurh_Signalling_TNL_AddressList" "";
    El true 1 "HNBAP_HNBConfigurationInformationProvided" ["iE_Extensions"] "HNBAP_IE_Extensions" ""] (SpSeq "HNBAP_HNBConfigurationInformationProvided" ("HNBAP_HNBConfigurationInformationProvided", "_asn_ctx") [0; 1; 4] 3 0);
  (* src/hnbap/HNBAP_HNBDe-Register.c:66-92 *)
  De "HNBAP_HNBDe-Register:hnbDe_Register_ies_2" ["SEQUENCE_OF"; "SEQUENCE_OF"; "SEQUENCE_OF"; "SEQUENCE_OF"] (Of "SEQUENCE_OF") [El true 0 "" [] "HNBAP_IE" ""] (SpList "HNBAP_HNBDe_Register__hnbDe_Register_ies" ("HNBAP_HNBDe_Register__hnbDe_Register_ies", "_asn_ctx"));
  (* src/hnbap/HNBAP_HNBDe-Register.c:120-145 *)
  De "HNBAP_HNBDe_Register" ["SEQUENCE"; "SEQUENCE"; "SEQUENCE"; "SEQUENCE"] (Of "SEQUENCE") [El false 0 "HNBAP_HNBDe_Register" ["hnbDe_Register_ies"] "HNBAP_HNBDe-Register:hnbDe_Register_ies_2" "A_SEQUENCE_OF"] (SpSeq "HNBAP_HNBDe_Register" ("HNBAP_HNBDe_Register", "_asn_ctx") [] 0 0);
  (* src/hnbap/HNBAP_HNBRegisterAccept.c:66-92 *)
  De "HNBAP_HNBRegisterAccept:hnbRegisterAccept_ies_2" ["SEQUENCE_OF"; "SEQUENCE_OF"; "SEQUENCE_OF"; "SEQUENCE_OF"] (Of "SEQUENCE_OF") [El true 0 "" [] "HNBAP_IE" ""] (SpList "HNBAP_HNBRegisterAccept__hnbRegisterAccept_ies" ("HNBAP_HNBRegisterAccept__hnbRegisterAccept_ies", "_asn_ctx"));
  (* src/hnbap/HNBAP_HNBRegisterAccept.c:120-145 *)
  De "HNBAP_HNBRegisterAccept" ["SEQUENCE"; "SEQUENCE"; "SEQUENCE"; "SEQUENCE"] (Of "SEQUENCE") [El false 0 "HNBAP_HNBRegisterAccept" ["hnbRegisterAccept_ies"] "HNBAP_HNBRegisterAccept:hnbRegisterAccept_ies_2" "A_SEQUENCE_OF"] (SpSeq "HNBAP_HNBRegisterAccept" ("HNBAP_HNBRegisterAccept", "_asn_ctx") [] 0 0);
  (* src/hnbap/HNBAP_HNBRegisterReject.c:66-92 *)
  De "HNBAP_HNBRegisterReject:hnbRegisterReject_ies_2" ["SEQUENCE_OF"; "SEQUENCE_OF"; "SEQUENCE_OF"; "SEQUENCE_OF"] (Of "SEQUENCE_OF") [El true 0 "" [] "HNBAP_IE" ""] (SpList "HNBAP_HNBRegisterReject__hnbRegisterReject_ies" ("HNBAP_HNBRegisterReject__hnbRegisterReject_ies", "_asn_ctx"));
  (* src/hnbap/HNBAP_HNBRegisterReject.c:120-145 *)
  De "HNBAP_HNBRegisterReject" ["SEQUENCE"; "SEQUENCE"; "SEQUENCE"; "SEQUENCE"] (Of "SEQUENCE") [El false 0 "HNBAP_HNBRegisterReject" ["hnbRegisterReject_ies"] "HNBAP_HNBRegisterReject:hnbRegisterReject_ies_2" "A_SEQUENCE_OF"] (SpSeq "HNBAP_HNBRegisterReject" ("HNBAP_HNBRegisterReject", "_asn_ctx") [] 0 0);
  (* src/hnbap/HNBAP_HNBRegisterRequest.c:66-92 *)
  De "HNBAP_HNBRegisterRequest:hnbRegisterRequest_ies_2" ["SEQUENCE_OF"; "SEQUENCE_OF"; "SEQUENCE_OF"; "SEQUENCE_OF"] (Of "SEQUENCE_OF") [El true 0 "" [] "HNBAP_IE" ""] (SpList "HNBAP_HNBRegisterRequest__hnbRegisterRequest_ies" ("HNBAP_HNBRegisterRequest__hnbRegisterRequest_ies", "_asn_ctx"));
  (* src/hnbap/HNBAP_HNBRegisterRequest.c:120-145 *)
  De "HNBAP_HNBRegisterRequest" ["SEQUENCE"; "SEQUENCE"; "SEQUENCE"; "SEQUENCE"] (Of "SEQUENCE") [El false 0 "HNBAP_HNBRegisterRequest" ["hnbRegisterRequest_ies"] "HNBAP_HNBRegisterRequest:hnbRegisterRequest_ies_2" "A_SEQUENCE_OF"] (SpSeq "HNBAP_HNBRegisterRequest" ("HNBAP_HNBRegisterRequest", "_asn_ctx") [] 0 0);
  (* src/hnbap/HNBAP_IE-Extensions.c:34-59 *)
  De "HNBAP_IE_Extensions" ["SEQUENCE_OF"; "SEQUENCE_OF"; "SEQUENCE_OF"; "SEQUENCE_OF"] (Of "SEQUENCE_OF") [El true 0 "" [] "HNBAP_IE" ""] (SpList "HNBAP_IE_Extensions" ("HNBAP_IE_Extensions", "_asn_ctx"));
  (* src/hnbap/HNBAP_IE.c:56-81 *)
  De "HNBAP_IE" ["SEQUENCE"; "SEQUENCE"; "SEQUENCE"; "SEQUENCE"] (Of "SEQUENCE") [El false 0 "HNBAP_IE" ["id"] "HNBAP_ProtocolIE_ID" "";
    El false 0 "HNBAP_IE" ["criticality"] "HNBAP_Criticality" "";
    El false 0 "HNBAP_IE" ["value"] "ANY" ""] (SpSeq "HNBAP_IE" ("HNBAP_IE", "_asn_ctx") [] 0 0);
  (* src/hnbap/HNBAP_IMEI.c:147-171 *)
  De "HNBAP_IMEI" ["BIT_STRING"; "BIT_STRING"; "BIT_STRING"; "BIT_STRING"] (Cast "BIT_STRING_t") [] (SpNone);
  (* src/hnbap/HNBAP_IMSI.c:142-166 *)
  De "HNBAP_IMSI" ["OCTET_STRING"; "OCTET_STRING"; "OCTET_STRING"; "OCTET_STRING"] (Cast "OCTET_STRING_t") [] (SpNone);
  (* src/hnbap/HNBAP_IMSIDS41.c:142-166 *)
  De "HNBAP_IMSIDS41" ["OCTET_STRING"; "OCTET_STRING"; "OCTET_STRING"; "OCTET_STRING"] (Cast "OCTET_STRING_t") [] (SpNone);
  (* src/hnbap/HNBAP_IMSIESN.c:46-71 *)
  De "HNBAP_IMSIESN" ["SEQUENCE"; "SEQUENCE"; "SEQUENCE"; "SEQUENCE"] (Of "SEQUENCE") [El false 0 "HNBAP_IMSIESN" ["iMSIDS41"] "HNBAP_IMSIDS41" "";
    El false 0 "HNBAP_IMSIESN" ["eSN"] "HNBAP_ESN" ""] (SpSeq "HNBAP_IMSIESN" ("HNBAP_IMSIESN", "_asn_ctx") [] 0 0);
  (* src/hnbap/HNBAP_IP-Address.c:49-73 *)
  De "HNBAP_IP-Address:ipaddress_2" ["CHOICE"; "CHOICE"; "CHOICE"; "CHOICE"] (Of "CHOICE") [El false 0 "HNBAP_IP_Address__ipaddress" ["choice"; "ipv4info"] "HNBAP_Ipv4Address" "";
    El false 0 "HNBAP_IP_Address__ipaddress" ["choice"; "ipv6info"] "HNBAP_Ipv6Address" ""] (SpChoice "HNBAP_IP_Address__ipaddress" ("HNBAP_IP_Address__ipaddress", "_asn_ctx") ("HNBAP_IP_Address__ipaddress", "present") ("HNBAP_IP_Address__ipaddress", "present"));
  (* src/hnbap/HNBAP_IP-Address.c:113-138 *)
  De "HNBAP_IP_Address" ["SEQUENCE"; "SEQUENCE"; "SEQUENCE"; "SEQUENCE"] (Of "SEQUENCE") [El false 0 "HNBAP_IP_Address" ["ipaddress"] "HNBAP_IP-Address:ipaddress_2" "";
    El true 1 "HNBAP_IP_Address" ["iE_Extensions"] "HNBAP_IE_Extensions" ""] (SpSeq "HNBAP_IP_Address" ("HNBAP_IP_Address", "_asn_ctx") [1] 1 0);
  (* src/hnbap/HNBAP_InitiatingMessage.c:56-81 *)
  De "HNBAP_InitiatingMessage" ["SEQUENCE"; "SEQUENCE"; "SEQUENCE"; "SEQUENCE"] (Of "SEQUENCE") [El false 0 "HNBAP_InitiatingMessage" ["procedureCode"] "HNBAP_ProcedureCode" "";
    El false 0 "HNBAP_InitiatingMessage" ["criticality"] "HNBAP_Criticality" "";
    El false 0 "HNBAP_InitiatingMessage" ["value"] "ANY" ""] (SpSeq "HNBAP_InitiatingMessage" ("HNBAP_InitiatingMessage", "_asn_ctx") [] 0 0);
  (* src/hnbap/HNBAP_Ipv4Address.c:142-166 *)
  De "HNBAP_Ipv4Address" ["OCTET_STRING"; "OCTET_STRING"; "OCTET_STRING"; "OCTET_STRING"] (Cast "OCTET_STRING_t") [] (SpNone);
  (* src/hnbap/HNBAP_Ipv6Address.c:142-166 *)
  De "HNBAP_Ipv6Address" ["OCTET_STRING"; "OCTET_STRING"; "OCTET_STRING"; "OCTET_STRING"] (Cast "OCTET_STRING_t") [] (SpNone);
  (* src/hnbap/HNBAP_Iurh-Signalling-TNL-AddressList.c:34-59 *)
  De "HNBAP_Iurh_Signalling_TNL_AddressList" ["SEQUENCE_OF"; "SEQUENCE_OF"; "SEQUENCE_OF"; "SEQUENCE_OF"] (Of "SEQUENCE_OF") [El true 0 "" [] "HNBAP_IP_Address" ""] (SpList "HNBAP_Iurh_Signalling_TNL_AddressList" ("HNBAP_Iurh_Signalling_TNL_AddressList", "_asn_ctx"));
  (* src/hnbap/HNBAP_LAC.c:142-166 *)
  De "HNBAP_LAC" ["OCTET_STRING"; "OCTET_STRING"; "OCTET_STRING"; "OCTET_STRING"] (Cast "OCTET_STRING_t") [] (SpNone);
  (* src/hnbap/HNBAP_LAI.c:46-71 *)
  De "HNBAP_LAI" ["SEQUENCE"; "SEQUENCE"; "SEQUENCE"; "SEQUENCE"] (Of "SEQUENCE") [El false 0 "HNBAP_LAI" ["pLMNID"] "HNBAP_PLMNidentity" "";
    El false 0 "HNBAP_LAI" ["lAC"] "HNBAP_LAC" ""] (SpSeq "HNBAP_LAI" ("HNBAP_LAI", "_asn_ctx") [] 0 0);
  (* src/hnbap/HNBAP_MacroCellID.c:49-72 *)
  De "HNBAP_MacroCellID" ["CHOICE"; "CHOICE"; "CHOICE"; "CHOICE"] (Of "CHOICE") [El false 0 "HNBAP_MacroCellID" ["choice"; "uTRANCellID"] "HNBAP_UTRANCellID" "";
    El false 0 "HNBAP_MacroCellID" ["choice"; "gERANCellID"] "HNBAP_CGI" ""] (SpChoice "HNBAP_MacroCellID" ("HNBAP_MacroCellID", "_asn_ctx") ("HNBAP_MacroCellID", "present") ("HNBAP_MacroCellID", "present"));
  (* src/hnbap/HNBAP_MacroCoverageInformation.c:48-73 *)
  De "HNBAP_MacroCoverageInformation" ["SEQUENCE"; "SEQUENCE"; "SEQUENCE"; "SEQUENCE"] (Of "SEQUENCE") [El false 0 "HNBAP_MacroCoverageInformation" ["cellIdentity"] "HNBAP_MacroCellID" "";
    El true 1 "HNBAP_MacroCoverageInformation" ["iE_Extensions"] "HNBAP_IE_Extensions" ""] (SpSeq "HNBAP_MacroCoverageInformation" ("HNBAP_MacroCoverageInformation", "_asn_ctx") [1] 1 0);
  (* src/hnbap/HNBAP_MuxPortNumber.c:141-165 *)
  De "HNBAP_MuxPortNumber" ["NativeInteger"; "NativeInteger"; "NativeInteger"; "NativeInteger"] (Cast "long") [] (SpNone);
  (* src/hnbap/HNBAP_NeighbourCellIdentityList.c:34-59 *)
  De "HNBAP_NeighbourCellIdentityList" ["SEQUENCE_OF"; "SEQUENCE_OF"; "SEQUENCE_OF"; "SEQUENCE_OF"] (Of "SEQUENCE_OF") [El true 0 "" [] "HNBAP_NeighbourIdentity" ""] (SpList "HNBAP_NeighbourCellIdentityList" ("HNBAP_NeighbourCellIdentityList", "_asn_ctx"));
  (* src/hnbap/HNBAP_NeighbourIdentity.c:49-72 *)
  De "HNBAP_NeighbourIdentity" ["CHOICE"; "CHOICE"; "CHOICE"; "CHOICE"] (Of "CHOICE") [El false 0 "HNBAP_NeighbourIdentity" ["choice"; "hNB_RNL_Identity"] "HNBAP_HNB_RNL_Identity" "";
    El false 0 "HNBAP_NeighbourIdentity" ["choice"; "cell_ID"] "HNBAP_CellIdentity" ""] (SpChoice "HNBAP_NeighbourIdentity" ("HNBAP_NeighbourIdentity", "_asn_ctx") ("HNBAP_NeighbourIdentity", "present") ("HNBAP_NeighbourIdentity", "present"));
  (* src/hnbap/HNBAP_NeighbourInfoList.c:34-59 *)
  De "HNBAP_NeighbourInfoList" ["SEQUENCE_OF"; "SEQUENCE_OF"; "SEQUENCE_OF"; "SEQUENCE_OF"] (Of "SEQUENCE_OF") [El true 0 "" [] "HNBAP_HNBConfigInfo" ""] (SpList "HNBAP_NeighbourInfoList" ("HNBAP_NeighbourInfoList", "_asn_ctx"));
  (* src/hnbap/HNBAP_NeighbourInfoRequestItem.c:48-73 *)
  De "HNBAP_NeighbourInfoRequestItem" ["SEQUENCE"; "SEQUENCE"; "SEQUENCE"; "SEQUENCE"] (Of "SEQUENCE") [El false 0 "HNBAP_NeighbourInfoRequestItem" ["hnb_RNL_Identity"] "HNBAP_HNB_RNL_Identity" "";
    El true 1 "HNBAP_NeighbourInfoRequestItem" ["iE_Extensions"] "HNBAP_IE_Extensions" ""] (SpSeq "HNBAP_NeighbourInfoRequestItem" ("HNBAP_NeighbourInfoRequestItem", "_asn_ctx") [1] 1 0);
  (* src/hnbap/HNBAP_NeighbourInfoRequestList.c:34-59 *)
  De "HNBAP_NeighbourInfoRequestList" ["SEQUENCE_OF"; "SEQUENCE_OF"; "SEQUENCE_OF"; "SEQUENCE_OF"] (Of "SEQUENCE_OF") [El true 0 "" [] "HNBAP_NeighbourInfoRequestItem" ""] (SpList "HNBAP_NeighbourInfoRequestList" ("HNBAP_NeighbourInfoRequestList", "_asn_ctx"));
  (* src/hnbap/HNBAP_PLMNidentity.c:142-166 *)
  De "HNBAP_PLMNidentity" ["OCTET_STRING"; "OCTET_STRING"; "OCTET_STRING"; "OCTET_STRING"] (Cast "OCTET_STRING_t") [] (SpNone);
  (* src/hnbap/HNBAP_PSC.c:147-171 *)
  De "HNBAP_PSC" ["BIT_STRING"; "BIT_STRING"; "BIT_STRING"; "BIT_STRING"] (Cast "BIT_STRING_t") [] (SpNone);
  (* src/hnbap/HNBAP_PTMSI.c:147-171 *)
  De "HNBAP_PTMSI" ["BIT_STRING"; "BIT_STRING"; "BIT_STRING"; "BIT_STRING"] (Cast "BIT_STRING_t") [] (SpNone);
  (* src/hnbap/HNBAP_PTMSIRAI.c:46-71 *)
  De "HNBAP_PTMSIRAI" ["SEQUENCE"; "SEQUENCE"; "SEQUENCE"; "SEQUENCE"] (Of "SEQUENCE") [El false 0 "HNBAP_PTMSIRAI" ["pTMSI"] "HNBAP_PTMSI" "";
    El false 0 "HNBAP_PTMSIRAI" ["rAI"] "HNBAP_RAI" ""] (SpSeq "HNBAP_PTMSIRAI" ("HNBAP_PTMSIRAI", "_asn_ctx") [] 0 0);
  (* src/hnbap/HNBAP_Presence.c:143-167 *)
  De "HNBAP_Presence" ["NativeEnumerated"; "NativeEnumerated"; "NativeEnumerated"; "NativeEnumerated"] (Of "NativeEnumerated") [] (SpInt false);
  (* src/hnbap/HNBAP_PrivateIE-ID.c:79-102 *)
  De "HNBAP_PrivateIE_ID" ["CHOICE"; "CHOICE"; "CHOICE"; "CHOICE"] (Of "CHOICE") [El false 0 "HNBAP_PrivateIE_ID" ["choice"; "local"] "NativeInteger" "long";
    El false 0 "HNBAP_PrivateIE_ID" ["choice"; "global"] "OBJECT_IDENTIFIER" ""] (SpChoice "HNBAP_PrivateIE_ID" ("HNBAP_PrivateIE_ID", "_asn_ctx") ("HNBAP_PrivateIE_ID", "present") ("HNBAP_PrivateIE_ID", "present"));
  (* src/hnbap/HNBAP_PrivateMessage.c:66-92 *)
  De "HNBAP_PrivateMessage:privateMessage_ies_2" ["SEQUENCE_OF"; "SEQUENCE_OF"; "SEQUENCE_OF"; "SEQUENCE_OF"] (Of "SEQUENCE_OF") [El true 0 "" [] "HNBAP_IE" ""] (SpList "HNBAP_PrivateMessage__privateMessage_ies" ("HNBAP_PrivateMessage__privateMessage_ies", "_asn_ctx"));
  (* src/hnbap/HNBAP_PrivateMessage.c:120-145 *)
  De "HNBAP_PrivateMessage" ["SEQUENCE"; "SEQUENCE"; "SEQUENCE"; "SEQUENCE"] (Of "SEQUENCE") [El false 0 "HNBAP_PrivateMessage" ["privateMessage_ies"] "HNBAP_PrivateMessage:privateMessage_ies_2" "A_SEQUENCE_OF"] (SpSeq "HNBAP_PrivateMessage" ("HNBAP_PrivateMessage", "_asn_ctx") [] 0 0);
  (* src/hnbap/HNBAP_ProcedureCode.c:141-165 *)
  De "HNBAP_ProcedureCode" ["NativeInteger"; "NativeInteger"; "NativeInteger"; "NativeInteger"] (Cast "long") [] (SpNone);
  (* src/hnbap/HNBAP_ProtocolIE-ID.c:141-165 *)
  De "HNBAP_ProtocolIE_ID" ["NativeInteger"; "NativeInteger"; "NativeInteger"; "NativeInteger"] (Cast "long") [] (SpNone);
  (* src/hnbap/HNBAP_RAB-ID.c:147-171 *)
  De "HNBAP_RAB_ID" ["BIT_STRING"; "BIT_STRING"; "BIT_STRING"; "BIT_STRING"] (Cast "BIT_STRING_t") [] (SpNone);
  (* src/hnbap/HNBAP_RABList.c:34-59 *)
  De "HNBAP_RABList" ["SEQUENCE_OF"; "SEQUENCE_OF"; "SEQUENCE_OF"; "SEQUENCE_OF"] (Of "SEQUENCE_OF") [El true 0 "" [] "HNBAP_RABListItem" ""] (SpList "HNBAP_RABList" ("HNBAP_RABList", "_asn_ctx"));
  (* src/hnbap/HNBAP_RABListItem.c:78-103 *)
  De "HNBAP_RABListItem" ["SEQUENCE"; "SEQUENCE"; "SEQUENCE"; "SEQUENCE"] (Of "SEQUENCE") [El false 0 "HNBAP_RABListItem" ["rAB_ID"] "HNBAP_RAB_ID" "";
    El false 0 "HNBAP_RABListItem" ["old_transport_Info"] "HNBAP_TransportInfo" "";
    El false 0 "HNBAP_RABListItem" ["new_transport_Info"] "HNBAP_TransportInfo" "";
    El false 0 "HNBAP_RABListItem" ["cn_domain_indicator"] "HNBAP_CN_DomainIndicator" "";
    El true 1 "HNBAP_RABListItem" ["iE_Extensions"] "HNBAP_IE_Extensions" ""] (SpSeq "HNBAP_RABListItem" ("HNBAP_RABListItem", "_asn_ctx") [4] 1 0);
  (* src/hnbap/HNBAP_RAC.c:142-166 *)
  De "HNBAP_RAC" ["OCTET_STRING"; "OCTET_STRING"; "OCTET_STRING"; "OCTET_STRING"] (Cast "OCTET_STRING_t") [] (SpNone);
  (* src/hnbap/HNBAP_RAI.c:46-71 *)
  De "HNBAP_RAI" ["SEQUENCE"; "SEQUENCE"; "SEQUENCE"; "SEQUENCE"] (Of "SEQUENCE") [El false 0 "HNBAP_RAI" ["lAI"] "HNBAP_LAI" "";
    El false 0 "HNBAP_RAI" ["rAC"] "HNBAP_RAC" ""] (SpSeq "HNBAP_RAI" ("HNBAP_RAI", "_asn_ctx") [] 0 0);
  (* src/hnbap/HNBAP_RNC-ID.c:141-165 *)
  De "HNBAP_RNC_ID" ["NativeInteger"; "NativeInteger"; "NativeInteger"; "NativeInteger"] (Cast "long") [] (SpNone);
  (* src/hnbap/HNBAP_Registration-Cause.c:145-169 *)
  De "HNBAP_Registration_Cause" ["NativeEnumerated"; "NativeEnumerated"; "NativeEnumerated"; "NativeEnumerated"] (Of "NativeEnumerated") [] (SpInt false);
  (* src/hnbap/HNBAP_RelocationComplete.c:66-92 *)
  De "HNBAP_RelocationComplete:relocationComplete_ies_2" ["SEQUENCE_OF"; "SEQUENCE_OF"; "SEQUENCE_OF"; "SEQUENCE_OF"] (Of "SEQUENCE_OF") [El true 0 "" [] "HNBAP_IE" ""] (SpList "HNBAP_RelocationComplete__relocationComplete_ies" ("HNBAP_RelocationComplete__relocationComplete_ies", "_asn_ctx"));
  (* src/hnbap/HNBAP_RelocationComplete.c:120-145 *)
  De "HNBAP_RelocationComplete" ["SEQUENCE"; "SEQUENCE"; "SEQUENCE"; "SEQUENCE"] (Of "SEQUENCE") [El false 0 "HNBAP_RelocationComplete" ["relocationComplete_ies"] "HNBAP_RelocationComplete:relocationComplete_ies_2" "A_SEQUENCE_OF"] (SpSeq "HNBAP_RelocationComplete" ("HNBAP_RelocationComplete", "_asn_ctx") [] 0 0);
  (* src/hnbap/HNBAP_S-RNTIPrefix.c:147-171 *)
  De "HNBAP_S_RNTIPrefix" ["BIT_STRING"; "BIT_STRING"; "BIT_STRING"; "BIT_STRING"] (Cast "BIT_STRING_t") [] (SpNone);
  (* src/hnbap/HNBAP_SAC.c:142-166 *)
  De "HNBAP_SAC" ["OCTET_STRING"; "OCTET_STRING"; "OCTET_STRING"; "OCTET_STRING"] (Cast "OCTET_STRING_t") [] (SpNone);
  (* src/hnbap/HNBAP_SuccessfulOutcome.c:56-81 *)
  De "HNBAP_SuccessfulOutcome" ["SEQUENCE"; "SEQUENCE"; "SEQUENCE"; "SEQUENCE"] (Of "SEQUENCE") [El false 0 "HNBAP_SuccessfulOutcome" ["procedureCode"] "HNBAP_ProcedureCode" "";
    El false 0 "HNBAP_SuccessfulOutcome" ["criticality"] "HNBAP_Criticality" "";
    El false 0 "HNBAP_SuccessfulOutcome" ["value"] "ANY" ""] (SpSeq "HNBAP_SuccessfulOutcome" ("HNBAP_SuccessfulOutcome", "_asn_ctx") [] 0 0);
  (* src/hnbap/HNBAP_TMSIDS41.c:142-166 *)
  De "HNBAP_TMSIDS41" ["OCTET_STRING"; "OCTET_STRING"; "OCTET_STRING"; "OCTET_STRING"] (Cast "OCTET_STRING_t") [] (SpNone);
  (* src/hnbap/HNBAP_TMSILAI.c:82-107 *)
  De "HNBAP_TMSILAI" ["SEQUENCE"; "SEQUENCE"; "SEQUENCE"; "SEQUENCE"] (Of "SEQUENCE") [El false 0 "HNBAP_TMSILAI" ["tMSI"] "BIT_STRING" "BIT_STRING_t";
    El false 0 "HNBAP_TMSILAI" ["lAI"] "HNBAP_LAI" ""] (SpSeq "HNBAP_TMSILAI" ("HNBAP_TMSILAI", "_asn_ctx") [] 0 0);
  (* src/hnbap/HNBAP_TNLUpdateFailure.c:66-92 *)
  De "HNBAP_TNLUpdateFailure:tnlUpdateFailure_ies_2" ["SEQUENCE_OF"; "SEQUENCE_OF"; "SEQUENCE_OF"; "SEQUENCE_OF"] (Of "SEQUENCE_OF") [El true 0 "" [] "HNBAP_IE" ""] (SpList "HNBAP_TNLUpdateFailure__tnlUpdateFailure_ies" ("HNBAP_TNLUpdateFailure__tnlUpdateFailure_ies", "_asn_ctx"));
  (* src/hnbap/HNBAP_TNLUpdateFailure.c:120-145 *)
  De "HNBAP_TNLUpdateFailure" ["SEQUENCE"; "SEQUENCE"; "SEQUENCE"; "SEQUENCE"] (Of "SEQUENCE") [El false 0 "HNBAP_TNLUpdateFailure" ["tnlUpdateFailure_ies"] "HNBAP_TNLUpdateFailure:tnlUpdateFailure_ies_2" "A_SEQUENCE_OF"] (SpSeq "HNBAP_TNLUpdateFailure" ("HNBAP_TNLUpdateFailure", "_asn_ctx") [] 0 0);
  (* src/hnbap/HNBAP_TNLUpdateRequest.c:66-92 *)
  De "HNBAP_TNLUpdateRequest:tnlUpdateRequest_ies_2" ["SEQUENCE_OF"; "SEQUENCE_OF"; "SEQUENCE_OF"; "SEQUENCE_OF"] (Of "SEQUENCE_OF") [El true 0 "" [] "HNBAP_IE" ""] (SpList "HNBAP_TNLUpdateRequest__tnlUpdateRequest_ies" ("HNBAP_TNLUpdateRequest__tnlUpdateRequest_ies", "_asn_ctx"));
  (* src/hnbap/HNBAP_TNLUpdateRequest.c:120-145 *)
  De "HNBAP_TNLUpdateRequest" ["SEQUENCE"; "SEQUENCE"; "SEQUENCE"; "SEQUENCE"] (Of "SEQUENCE") [El false 0 "HNBAP_TNLUpdateRequest" ["tnlUpdateRequest_ies"] "HNBAP_TNLUpdateRequest:tnlUpdateRequest_ies_2" "A_SEQUENCE_OF"] (SpSeq "HNBAP_TNLUpdateRequest" ("HNBAP_TNLUpdateRequest", "_asn_ctx") [] 0 0);
  (* src/hnbap/HNBAP_TNLUpdateResponse.c:66-92 *)
  De "HNBAP_TNLUpdateResponse:tnlUpdateResponse_ies_2" ["SEQUENCE_OF"; "SEQUENCE_OF"; "SEQUENCE_OF"; "SEQUENCE_OF"] (Of "SEQUENCE_OF") [El true 0 "" [] "HNBAP_IE" ""] (SpList "HNBAP_TNLUpdateResponse__tnlUpdateResponse_ies" ("HNBAP_TNLUpdateResponse__tnlUpdateResponse_ies", "_asn_ctx"));
  (* src/hnbap/HNBAP_TNLUpdateResponse.c:120-145 *)
  De "HNBAP_TNLUpdateResponse" ["SEQUENCE"; "SEQUENCE"; "SEQUENCE"; "SEQUENCE"] (Of "SEQUENCE") [El false 0 "HNBAP_TNLUpdateResponse" ["tnlUpdateResponse_ies"] "HNBAP_TNLUpdateResponse:tnlUpdateResponse_ies_2" "A_SEQUENCE_OF"] (SpSeq "HNBAP_TNLUpdateResponse" ("HNBAP_TNLUpdateResponse", "_asn_ctx") [] 0 0);
  (* src/hnbap/HNBAP_TransportInfo.c:49-73 *)
  De "HNBAP_TransportInfo:transportAssociation_3" ["CHOICE"; "CHOICE"; "CHOICE"; "CHOICE"] (Of "CHOICE") [El false 0 "HNBAP_TransportInfo__transportAssociation" ["choice"; "gtp_TEI"] "HNBAP_GTP_TEI" "";
    El false 0 "HNBAP_TransportInfo__transportAssociation" ["choice"; "bindingID"] "HNBAP_BindingID" ""] (SpChoice "HNBAP_TransportInfo__transportAssociation" ("HNBAP_TransportInfo__transportAssociation", "_asn_ctx") ("HNBAP_TransportInfo__transportAssociation", "present") ("HNBAP_TransportInfo__transportAssociation", "present"));
  (* src/hnbap/HNBAP_TransportInfo.c:123-148 *)
  De "HNBAP_TransportInfo" ["SEQUENCE"; "SEQUENCE"; "SEQUENCE"; "SEQUENCE"] (Of "SEQUENCE") [El false 0 "HNBAP_TransportInfo" ["transportLayerAddress"] "HNBAP_TransportLayerAddress" "";
    El false 0 "HNBAP_TransportInfo" ["transportAssociation"] "HNBAP_TransportInfo:transportAssociation_3" "";
    El true 1 "HNBAP_TransportInfo" ["iE_Extensions"] "HNBAP_IE_Extensions" ""] (SpSeq "HNBAP_TransportInfo" ("HNBAP_TransportInfo", "_asn_ctx") [2] 1 0);
  (* src/hnbap/HNBAP_TransportLayerAddress.c:147-171 *)
  De "HNBAP_TransportLayerAddress" ["BIT_STRING"; "BIT_STRING"; "BIT_STRING"; "BIT_STRING"] (Cast "BIT_STRING_t") [] (SpNone);
  (* src/hnbap/HNBAP_TriggeringMessage.c:143-167 *)
  De "HNBAP_TriggeringMessage" ["NativeEnumerated"; "NativeEnumerated"; "NativeEnumerated"; "NativeEnumerated"] (Of "NativeEnumerated") [] (SpInt false);
  (* src/hnbap/HNBAP_Tunnel-Information.c:58-83 *)
  De "HNBAP_Tunnel_Information" ["SEQUENCE"; "SEQUENCE"; "SEQUENCE"; "SEQUENCE"] (Of "SEQUENCE") [El false 0 "HNBAP_Tunnel_Information" ["iP_Address"] "HNBAP_IP_Address" "";
    El true 2 "HNBAP_Tunnel_Information" ["uDP_Port_Number"] "HNBAP_UDP_Port_Number" "";
    El true 1 "HNBAP_Tunnel_Information" ["iE_Extensions"] "HNBAP_IE_Extensions" ""] (SpSeq "HNBAP_Tunnel_Information" ("HNBAP_Tunnel_Information", "_asn_ctx") [1; 2] 2 0);
  (* src/hnbap/HNBAP_TypeOfError.c:143-167 *)
  De "HNBAP_TypeOfError" ["NativeEnumerated"; "NativeEnumerated"; "NativeEnumerated"; "NativeEnumerated"] (Of "NativeEnumerated") [] (SpInt false);
  (* src/hnbap/HNBAP_U-RNTI.c:147-171 *)
  De "HNBAP_U_RNTI" ["BIT_STRING"; "BIT_STRING"; "BIT_STRING"; "BIT_STRING"] (Cast "BIT_STRING_t") [] (SpNone);
  (* src/hnbap/HNBAP_U-RNTIQueryRequest.c:66-92 *)
  De "HNBAP_U-RNTIQueryRequest:u_RNTIQueryRequest_ies_2" ["SEQUENCE_OF"; "SEQUENCE_OF"; "SEQUENCE_OF"; "SEQUENCE_OF"] (Of "SEQUENCE_OF") [El true 0 "" [] "HNBAP_IE" ""] (SpList "HNBAP_U_RNTIQueryRequest__u_RNTIQueryRequest_ies" ("HNBAP_U_RNTIQueryRequest__u_RNTIQueryRequest_ies", "_asn_ctx"));
  (* src/hnbap/HNBAP_U-RNTIQueryRequest.c:120-145 *)
  De "HNBAP_U_RNTIQueryRequest" ["SEQUENCE"; "SEQUENCE"; "SEQUENCE"; "SEQUENCE"] (Of "SEQUENCE") [El false 0 "HNBAP_U_RNTIQueryRequest" ["u_RNTIQueryRequest_ies"] "HNBAP_U-RNTIQueryRequest:u_RNTIQueryRequest_ies_2" "A_SEQUENCE_OF"] (SpSeq "HNBAP_U_RNTIQueryRequest" ("HNBAP_U_RNTIQueryRequest", "_asn_ctx") [] 0 0);
  (* src/hnbap/HNBAP_U-RNTIQueryResponse.c:66-92 *)
  De "HNBAP_U-RNTIQueryResponse:u_RNTIQueryResponse_ies_2" ["SEQUENCE_OF"; "SEQUENCE_OF"; "SEQUENCE_OF"; "SEQUENCE_OF"] (Of "SEQUENCE_OF") [El true 0 "" [] "HNBAP_IE" ""] (SpList "HNBAP_U_RNTIQueryResponse__u_RNTIQueryResponse_ies" ("HNBAP_U_RNTIQueryResponse__u_RNTIQueryResponse_ies", "_asn_ctx"));
  (* src/hnbap/HNBAP_U-RNTIQueryResponse.c:120-145 *)
  De "HNBAP_U_RNTIQueryResponse" ["SEQUENCE"; "SEQUENCE"; "SEQUENCE"; "SEQUENCE"] (Of "SEQUENCE") [El false 0 "HNBAP_U_RNTIQueryResponse" ["u_RNTIQueryResponse_ies"] "HNBAP_U-RNTIQueryResponse:u_RNTIQueryResponse_ies_2" "A_SEQUENCE_OF"] (SpSeq "HNBAP_U_RNTIQueryResponse" ("HNBAP_U_RNTIQueryResponse", "_asn_ctx") [] 0 0);
  (* src/hnbap/HNBAP_UDP-Port-Number.c:142-166 *)
  De "HNBAP_UDP_Port_Number" ["OCTET_STRING"; "OCTET_STRING"; "OCTET_STRING"; "OCTET_STRING"] (Cast "OCTET_STRING_t") [] (SpNone);
  (* src/hnbap/HNBAP_UE-Capabilities.c:58-83 *)
  De "HNBAP_UE_Capabilities" ["SEQUENCE"; "SEQUENCE"; "SEQUENCE"; "SEQUENCE"] (Of "SEQUENCE") [El false 0 "HNBAP_UE_Capabilities" ["access_stratum_release_indicator"] "HNBAP_Access_stratum_release_indicator" "";
    El false 0 "HNBAP_UE_Capabilities" ["csg_capability"] "HNBAP_CSG_Capability" "";
    El true 1 "HNBAP_UE_Capabilities" ["iE_Extensions"] "HNBAP_IE_Extensions" ""] (SpSeq "HNBAP_UE_Capabilities" ("HNBAP_UE_Capabilities", "_asn_ctx") [2] 1 0);
  (* src/hnbap/HNBAP_UE-Identity.c:109-132 *)
  De "HNBAP_UE_Identity" ["CHOICE"; "CHOICE"; "CHOICE"; "CHOICE"] (Of "CHOICE") [El false 0 "HNBAP_UE_Identity" ["choice"; "iMSI"] "HNBAP_IMSI" "";
    El false 0 "HNBAP_UE_Identity" ["choice"; "tMSILAI"] "HNBAP_TMSILAI" "";
    El false 0 "HNBAP_UE_Identity" ["choice"; "pTMSIRAI"] "HNBAP_PTMSIRAI" "";
    El false 0 "HNBAP_UE_Identity" ["choice"; "iMEI"] "HNBAP_IMEI" "";
    El false 0 "HNBAP_UE_Identity" ["choice"; "eSN"] "HNBAP_ESN" "";
    El false 0 "HNBAP_UE_Identity" ["choice"; "iMSIDS41"] "HNBAP_IMSIDS41" "";
    El false 0 "HNBAP_UE_Identity" ["choice"; "iMSIESN"] "HNBAP_IMSIESN" "";
    El false 0 "HNBAP_UE_Identity" ["choice"; "tMSIDS41"] "HNBAP_TMSIDS41" ""] (SpChoice "HNBAP_UE_Identity" ("HNBAP_UE_Identity", "_asn_ctx") ("HNBAP_UE_Identity", "present") ("HNBAP_UE_Identity", "present"));
  (* src/hnbap/HNBAP_UEDe-Register.c:66-92 *)
  De "HNBAP_UEDe-Register:ueDe_Register_ies_2" ["SEQUENCE_OF"; "SEQUENCE_OF"; "SEQUENCE_OF"; "SEQUENCE_OF"] (Of "SEQUENCE_OF") [El true 0 "" [] "HNBAP_IE" ""] (SpList "HNBAP_UEDe_Register__ueDe_Register_ies" ("HNBAP_UEDe_Register__ueDe_Register_ies", "_asn_ctx"));
  (* src/hnbap/HNBAP_UEDe-Register.c:120-145 *)
  De "HNBAP_UEDe_Register" ["SEQUENCE"; "SEQUENCE"; "SEQUENCE"; "SEQUENCE"] (Of "SEQUENCE") [El false 0 "HNBAP_UEDe_Register" ["ueDe_Register_ies"] "HNBAP_UEDe-Register:ueDe_Register_ies_2" "A_SEQUENCE_OF"] (SpSeq "HNBAP_UEDe_Register" ("HNBAP_UEDe_Register", "_asn_ctx") [] 0 0);
  (* src/hnbap/HNBAP_UERegisterAccept.c:66-92 *)
  De "HNBAP_UERegisterAccept:ueRegisterAccept_ies_2" ["SEQUENCE_OF"; "SEQUENCE_OF"; "SEQUENCE_OF"; "SEQUENCE_OF"] (Of "SEQUENCE_OF") [El true 0 "" [] "HNBAP_IE" ""] (SpList "HNBAP_UERegisterAccept__ueRegisterAccept_ies" ("HNBAP_UERegisterAccept__ueRegisterAccept_ies", "_asn_ctx"));
  (* src/hnbap/HNBAP_UERegisterAccept.c:120-145 *)
  De "HNBAP_UERegisterAccept" ["SEQUENCE"; "SEQUENCE"; "SEQUENCE"; "SEQUENCE"] (Of "SEQUENCE") [El false 0 "HNBAP_UERegisterAccept" ["ueRegisterAccept_ies"] "HNBAP_UERegisterAccept:ueRegisterAccept_ies_2" "A_SEQUENCE_OF"] (SpSeq "HNBAP_UERegisterAccept" ("HNBAP_UERegisterAccept", "_asn_ctx") [] 0 0);
  (* src/hnbap/HNBAP_UERegisterReject.c:66-92 *)
  De "HNBAP_UERegisterReject:ueRegisterReject_ies_2" ["SEQUENCE_OF"; "SEQUENCE_OF"; "SEQUENCE_OF"; "SEQUENCE_OF"] (Of "SEQUENCE_OF") [El true 0 "" [] "HNBAP_IE" ""] (SpList "HNBAP_UERegisterReject__ueRegisterReject_ies" ("HNBAP_UERegisterReject__ueRegisterReject_ies", "_asn_ctx"));
  (* src/hnbap/HNBAP_UERegisterReject.c:120-145 *)
  De "HNBAP_UERegisterReject" ["SEQUENCE"; "SEQUENCE"; "SEQUENCE"; "SEQUENCE"] (Of "SEQUENCE") [El false 0 "HNBAP_UERegisterReject" ["ueRegisterReject_ies"] "HNBAP_UERegisterReject:ueRegisterReject_ies_2" "A_SEQUENCE_OF"] (SpSeq "HNBAP_UERegisterReject" ("HNBAP_UERegisterReject", "_asn_ctx") [] 0 0);
  (* src/hnbap/HNBAP_UERegisterRequest.c:66-92 *)
  De "HNBAP_UERegisterRequest:ueRegisterRequest_ies_2" ["SEQUENCE_OF"; "SEQUENCE_OF"; "SEQUENCE_OF"; "SEQUENCE_OF"] (Of "SEQUENCE_OF") [El true 0 "" [] "HNBAP_IE" ""] (SpList "HNBAP_UERegisterRequest__ueRegisterRequest_ies" ("HNBAP_UERegisterRequest__ueRegisterRequest_ies", "_asn_ctx"));
  (* src/hnbap/HNBAP_UERegisterRequest.c:120-145 *)
  De "HNBAP_UERegisterRequest" ["SEQUENCE"; "SEQUENCE"; "SEQUENCE"; "SEQUENCE"] (Of "SEQUENCE") [El false 0 "HNBAP_UERegisterRequest" ["ueRegisterRequest_ies"] "HNBAP_UERegisterRequest:ueRegisterRequest_ies_2" "A_SEQUENCE_OF"] (SpSeq "HNBAP_UERegisterRequest" ("HNBAP_UERegisterRequest", "_asn_ctx") [] 0 0);
  (* src/hnbap/HNBAP_URAIdentity.c:141-165 *)
  De "HNBAP_URAIdentity" ["NativeInteger"; "NativeInteger"; "NativeInteger"; "NativeInteger"] (Cast "long") [] (SpNone);
  (* src/hnbap/HNBAP_URAIdentityList.c:34-59 *)
  De "HNBAP_URAIdentityList" ["SEQUENCE_OF"; "SEQUENCE_OF"; "SEQUENCE_OF"; "SEQUENCE_OF"] (Of "SEQUENCE_OF") [El true 0 "" [] "HNBAP_URAIdentity" ""] (SpList "HNBAP_URAIdentityList" ("HNBAP_URAIdentityList", "_asn_ctx"));
  (* src/hnbap/HNBAP_UTRANCellID.c:78-103 *)
  De "HNBAP_UTRANCellID" ["SEQUENCE"; "SEQUENCE"; "SEQUENCE"; "SEQUENCE"] (Of "SEQUENCE") [El false 0 "HNBAP_UTRANCellID" ["lAC"] "HNBAP_LAC" "";
    El false 0 "HNBAP_UTRANCellID" ["rAC"] "HNBAP_RAC" "";
    El false 0 "HNBAP_UTRANCellID" ["pLMNidentity"] "HNBAP_PLMNidentity" "";
    El false 0 "HNBAP_UTRANCellID" ["uTRANcellID"] "HNBAP_CellIdentity" "";
    El true 1 "HNBAP_UTRANCellID" ["iE_Extensions"] "HNBAP_IE_Extensions" ""] (SpSeq "HNBAP_UTRANCellID" ("HNBAP_UTRANCellID", "_asn_ctx") [4] 1 0);
  (* src/hnbap/HNBAP_UnknownU-RNTIIndication.c:141-165 *)
  De "HNBAP_UnknownU_RNTIIndication" ["NativeEnumerated"; "NativeEnumerated"; "NativeEnumerated"; "NativeEnumerated"] (Of "NativeEnumerated") [] (SpInt false);
  (* src/hnbap/HNBAP_UnsuccessfulOutcome.c:56-81 *)
  De "HNBAP_UnsuccessfulOutcome" ["SEQUENCE"; "SEQUENCE"; "SEQUENCE"; "SEQUENCE"] (Of "SEQUENCE") [El false 0 "HNBAP_UnsuccessfulOutcome" ["procedureCode"] "HNBAP_ProcedureCode" "";
    El false 0 "HNBAP_UnsuccessfulOutcome" ["criticality"] "HNBAP_Criticality" "";
    El false 0 "HNBAP_UnsuccessfulOutcome" ["value"] "ANY" ""] (SpSeq "HNBAP_UnsuccessfulOutcome" ("HNBAP_UnsuccessfulOutcome", "_asn_ctx") [] 0 0);
  (* src/hnbap/HNBAP_Update-cause.c:141-165 *)
  De "HNBAP_Update_cause" ["NativeEnumerated"; "NativeEnumerated"; "NativeEnumerated"; "NativeEnumerated"] (Of "NativeEnumerated") [] (SpInt false) ].

Definition sabp_descs : list desc := [
  (* src/sabp/SABP_Available-Bandwidth.c:141-165 *)
  De "SABP_Available_Bandwidth" ["NativeInteger"; "NativeInteger"; "NativeInteger"; "NativeInteger"] (Cast "long") [] (SpNone);
  (* src/sabp/SABP_Broadcast-Message-Content-Validity-Indicator.c:141-165 *)
  De "SABP_Broadcast_Message_Content_Validity_Indicator" ["NativeEnumerated"; "NativeEnumerated"; "NativeEnumerated"; "NativeEnumerated"] (Of "NativeEnumerated") [] (SpInt false);
  (* src/sabp/SABP_Broadcast-Message-Content.c:147-171 *)
  De "SABP_Broadcast_Message_Content" ["BIT_STRING"; "BIT_STRING"; "BIT_STRING"; "BIT_STRING"] (Cast "BIT_STRING_t") [] (SpNone);
  (* src/sabp/SABP_Category.c:147-171 *)
  De "SABP_Category" ["NativeEnumerated"; "NativeEnumerated"; "NativeEnumerated"; "NativeEnumerated"] (Of "NativeEnumerated") [] (SpInt false);
  (* src/sabp/SABP_Cause.c:141-165 *)
  De "SABP_Cause" ["NativeInteger"; "NativeInteger"; "NativeInteger"; "NativeInteger"] (Cast "long") [] (SpNone);
  (* src/sabp/SABP_Criticality-Diagnostics.c:78-103 *)
  De "SABP_Criticality_Diagnostics" ["SEQUENCE"; "SEQUENCE"; "SEQUENCE"; "SEQUENCE"] (Of "SEQUENCE") [El true 5 "SABP_Criticality_Diagnostics" ["procedureCode"] "SABP_ProcedureCode" "";
    El true 4 "SABP_Criticality_Diagnostics" ["triggeringMessage"] "SABP_TriggeringMessage" "";
    El true 3 "SABP_Criticality_Diagnostics" ["procedureCriticality"] "SABP_Criticality" "";
    El true 2 "SABP_Criticality_Diagnostics" ["iEsCriticalityDiagnostics"] "SABP_CriticalityDiagnostics_IE_List" "";
    El true 1 "SABP_Criticality_Diagnostics" ["iE_Extensions"] "SABP_IE_Extensions" ""] (SpSeq "SABP_Criticality_Diagnostics" ("SABP_Criticality_Diagnostics", "_asn_ctx") [0; 1; 2; 3; 4] 5 0);
  (* src/sabp/SABP_Criticality.c:143-167 *)
  De "SABP_Criticality" ["NativeEnumerated"; "NativeEnumerated"; "NativeEnumerated"; "NativeEnumerated"] (Of "NativeEnumerated") [] (SpInt false);
  (* src/sabp/SABP_CriticalityDiagnostics-IE-List-Value.c:68-93 *)
  De "SABP_CriticalityDiagnostics_IE_List_Value" ["SEQUENCE"; "SEQUENCE"; "SEQUENCE"; "SEQUENCE"] (Of "SEQUENCE") [El false 0 "SABP_CriticalityDiagnostics_IE_List_Value" ["iECriticality"] "SABP_Criticality" "";
    El false 0 "SABP_CriticalityDiagnostics_IE_List_Value" ["iE_ID"] "SABP_ProtocolIE_ID" "";
    El true 2 "SABP_CriticalityDiagnostics_IE_List_Value" ["repetitionNumber"] "SABP_RepetitionNumber0" "";
    El true 1 "SABP_CriticalityDiagnostics_IE_List_Value" ["iE_Extensions"] "SABP_IE_Extensions" ""] (SpSeq "SABP_CriticalityDiagnostics_IE_List_Value" ("SABP_CriticalityDiagnostics_IE_List_Value", "_asn_ctx") [2; 3] 2 0);
  (* src/sabp/SABP_CriticalityDiagnostics-IE-List.c:34-59 *)
  De "SABP_CriticalityDiagnostics_IE_List" ["SEQUENCE_OF"; "SEQUENCE_OF"; "SEQUENCE_OF"; "SEQUENCE_OF"] (Of "SEQUENCE_OF") [El true 0 "" [] "SABP_CriticalityDiagnostics_IE_List_Value" ""] (SpList "SABP_CriticalityDiagnostics_IE_List" ("SABP_CriticalityDiagnostics_IE_List", "_asn_ctx"));
  (* src/sabp/SABP_Data-Coding-Scheme.c:147-171 *)
  De "SABP_Data_Coding_Scheme" ["BIT_STRING"; "BIT_STRING"; "BIT_STRING"; "BIT_STRING"] (Cast "BIT_STRING_t") [] (SpNone);
  (* src/sabp/SABP_Error-Indication.c:66-92 *)
  De "SABP_Error-Indication:error_Indication_ies_2" ["SEQUENCE_OF"; "SEQUENCE_OF"; "SEQUENCE_OF"; "SEQUENCE_OF"] (Of "SEQUENCE_OF") [El true 0 "" [] "SABP_IE" ""] (SpList "SABP_Error_Indication__error_Indication_ies" ("SABP_Error_Indication__error_Indication_ies", "_asn_ctx"));
  (* src/sabp/SABP_Error-Indication.c:120-145 *)
  De "SABP_Error_Indication" ["SEQUENCE"; "SEQUENCE"; "SEQUENCE"; "SEQUENCE"] (Of "SEQUENCE") [El false 0 "SABP_Error_Indication" ["error_Indication_ies"] "SABP_Error-Indication:error_Indication_ies_2" "A_SEQUENCE_OF"] (SpSeq "SABP_Error_Indication" ("SABP_Error_Indication", "_asn_ctx") [] 0 0);
  (* src/sabp/SABP_Failure-List-Item.c:58-83 *)
  De "SABP_Failure_List_Item" ["SEQUENCE"; "SEQUENCE"; "SEQUENCE"; "SEQUENCE"] (Of "SEQUENCE") [El false 0 "SABP_Failure_List_Item" ["service_area_identifier"] "SABP_Service_Area_Identifier" "";
    El false 0 "SABP_Failure_List_Item" ["cause"] "SABP_Cause" "";
    El true 1 "SABP_Failure_List_Item" ["iE_Extensions"] "SABP_IE_Extensions" ""] (SpSeq "SABP_Failure_List_Item" ("SABP_Failure_List_Item", "_asn_ctx") [2] 1 0);
  (* src/sabp/SABP_Failure-List.c:34-59 *)
  De "SABP_Failure_List" ["SEQUENCE_OF"; "SEQUENCE_OF"; "SEQUENCE_OF"; "SEQUENCE_OF"] (Of "SEQUENCE_OF") [El true 0 "" [] "SABP_Failure_List_Item" ""] (SpList "SABP_Failure_List" ("SABP_Failure_List", "_asn_ctx"));
  (* src/sabp/SABP_Failure.c:66-92 *)
  De "SABP_Failure:failure_ies_2" ["SEQUENCE_OF"; "SEQUENCE_OF"; "SEQUENCE_OF"; "SEQUENCE_OF"] (Of "SEQUENCE_OF") [El true 0 "" [] "SABP_IE" ""] (SpList "SABP_Failure__failure_ies" ("SABP_Failure__failure_ies", "_asn_ctx"));
  (* src/sabp/SABP_Failure.c:120-145 *)
  De "SABP_Failure" ["SEQUENCE"; "SEQUENCE"; "SEQUENCE"; "SEQUENCE"] (Of "SEQUENCE") [El false 0 "SABP_Failure" ["failure_ies"] "SABP_Failure:failure_ies_2" "A_SEQUENCE_OF"] (SpSeq "SABP_Failure" ("SABP_Failure", "_asn_ctx") [] 0 0);
  (* src/sabp/SABP_IE-Extensions.c:34-59 *)
  De "SABP_IE_Extensions" ["SEQUENCE_OF"; "SEQUENCE_OF"; "SEQUENCE_OF"; "SEQUENCE_OF"] (Of "SEQUENCE_OF") [El true 0 "" [] "SABP_IE" ""] (SpList "SABP_IE_Extensions" ("SABP_IE_Extensions", "_asn_ctx"));
  (* src/sabp/SABP_IE.c:56-81 *)
  De "SABP_IE" ["SEQUENCE"; "SEQUENCE"; "SEQUENCE"; "SEQUENCE"] (Of "SEQUENCE") [El false 0 "SABP_IE" ["id"] "SABP_ProtocolIE_ID" "";
    El false 0 "SABP_IE" ["criticality"] "SABP_Criticality" "";
    El false 0 "SABP_IE" ["value"] "ANY" ""] (SpSeq "SABP_IE" ("SABP_IE", "_asn_ctx") [] 0 0);
  (* src/sabp/SABP_InitiatingMessage.c:56-81 *)
  De "SABP_InitiatingMessage" ["SEQUENCE"; "SEQUENCE"; "SEQUENCE"; "SEQUENCE"] (Of "SEQUENCE") [El false 0 "SABP_InitiatingMessage" ["procedureCode"] "SABP_ProcedureCode" "";
    El false 0 "SABP_InitiatingMessage" ["criticality"] "SABP_Criticality" "";
    El false 0 "SABP_InitiatingMessage" ["value"] "ANY" ""] (SpSeq "SABP_InitiatingMessage" ("SABP_InitiatingMessage", "_asn_ctx") [] 0 0);
  (* src/sabp/SABP_Kill-Complete.c:66-92 *)
  De "SABP_Kill-Complete:kill_Complete_ies_2" ["SEQUENCE_OF"; "SEQUENCE_OF"; "SEQUENCE_OF"; "SEQUENCE_OF"] (Of "SEQUENCE_OF") [El true 0 "" [] "SABP_IE" ""] (SpList "SABP_Kill_Complete__kill_Complete_ies" ("SABP_Kill_Complete__kill_Complete_ies", "_asn_ctx"));
  (* src/sabp/SABP_Kill-Complete.c:120-145 *)
  De "SABP_Kill_Complete" ["SEQUENCE"; "SEQUENCE"; "SEQUENCE"; "SEQUENCE"] (Of "SEQUENCE") [El false 0 "SABP_Kill_Complete" ["kill_Complete_ies"] "SABP_Kill-Complete:kill_Complete_ies_2" "A_SEQUENCE_OF"] (SpSeq "SABP_Kill_Complete" ("SABP_Kill_Complete", "_asn_ctx") [] 0 0);
  (* src/sabp/SABP_Kill-Failure.c:66-92 *)
  De "SABP_Kill-Failure:kill_Failure_ies_2" ["SEQUENCE_OF"; "SEQUENCE_OF"; "SEQUENCE_OF"; "SEQUENCE_OF"] (Of "SEQUENCE_OF") [El true 0 "" [] "SABP_IE" ""] (SpList "SABP_Kill_Failure__kill_Failure_ies" ("SABP_Kill_Failure__kill_Failure_ies", "_asn_ctx"));
  (* src/sabp/SABP_Kill-Failure.c:120-145 *)
  De "SABP_Kill_Failure" ["SEQUENCE"; "SEQUENCE"; "SEQUENCE"; "SEQUENCE"] (Of "SEQUENCE") [El false 0 "SABP_Kill_Failure" ["kill_Failure_ies"] "SABP_Kill-Failure:kill_Failure_ies_2" "A_SEQUENCE_OF"] (SpSeq "SABP_Kill_Failure" ("SABP_Kill_Failure", "_asn_ctx") [] 0 0);
  (* src/sabp/SABP_Kill.c:66-92 *)
  De "SABP_Kill:kill_ies_2" ["SEQUENCE_OF"; "SEQUENCE_OF"; "SEQUENCE_OF"; "SEQUENCE_OF"] (Of "SEQUENCE_OF") [El true 0 "" [] "SABP_IE" ""] (SpList "SABP_Kill__kill_ies" ("SABP_Kill__kill_ies", "_asn_ctx"));
  (* src/sabp/SABP_Kill.c:120-145 *)
  De "SABP_Kill" ["SEQUENCE"; "SEQUENCE"; "SEQUENCE"; "SEQUENCE"] (Of "SEQUENCE") [El false 0 "SABP_Kill" ["kill_ies"] "SABP_Kill:kill_ies_2" "A_SEQUENCE_OF"] (SpSeq "SABP_Kill" ("SABP_Kill", "_asn_ctx") [] 0 0);
  (* src/sabp/SABP_Load-Query-Complete.c:66-92 *)
  De "SABP_Load-Query-Complete:load_Query_Complete_ies_2" ["SEQUENCE_OF"; "SEQUENCE_OF"; "SEQUENCE_OF"; "SEQUENCE_OF"] (Of "SEQUENCE_OF") [El true 0 "" [] "SABP_IE" ""] (SpList "SABP_Load_Query_Complete__load_Query_Complete_ies" ("SABP_Load_Query_Complete__load_Query_Complete_ies", "_asn_ctx"));
  (* src/sabp/SABP_Load-Query-Complete.c:120-145 *)
  De "SABP_Load_Query_Complete" ["SEQUENCE"; "SEQUENCE"; "SEQUENCE"; "SEQUENCE"] (Of "SEQUENCE") [El false 0 "SABP_Load_Query_Complete" ["load_Query_Complete_ies"] "SABP_Load-Query-Complete:load_Query_Complete_ies_2" "A_SEQUENCE_OF"] (SpSeq "SABP_Load_Query_Complete" ("SABP_Load_Query_Complete", "_asn_ctx") [] 0 0);
  (* src/sabp/SABP_Load-Query-Failure.c:66-92 *)
  De "SABP_Load-Query-Failure:load_Query_Failure_ies_2" ["SEQUENCE_OF"; "SEQUENCE_OF"; "SEQUENCE_OF"; "SEQUENCE_OF"] (Of "SEQUENCE_OF") [El true 0 "" [] "SABP_IE" ""] (SpList "SABP_Load_Query_Failure__load_Query_Failure_ies" ("SABP_Load_Query_Failure__load_Query_Failure_ies", "_asn_ctx"));
  (* src/sabp/SABP_Load-Query-Failure.c:120-145 *)
  De "SABP_Load_Query_Failure" ["SEQUENCE"; "SEQUENCE"; "SEQUENCE"; "SEQUENCE"] (Of "SEQUENCE") [El false 0 "SABP_Load_Query_Failure" ["load_Query_Failure_ies"] "SABP_Load-Query-Failure:load_Query_Failure_ies_2" "A_SEQUENCE_OF"] (SpSeq "SABP_Load_Query_Failure" ("SABP_Load_Query_Failure", "_asn_ctx") [] 0 0);
  (* src/sabp/SABP_Load-Query.c:66-92 *)
  De "SABP_Load-Query:load_Query_ies_2" ["SEQUENCE_OF"; "SEQUENCE_OF"; "SEQUENCE_OF"; "SEQUENCE_OF"] (Of "SEQUENCE_OF") [El true 0 "" [] "SABP_IE" ""] (SpList "SABP_Load_Query__load_Query_ies" ("SABP_Load_Query__load_Query_ies", "_asn_ctx"));
  (* src/sabp/SABP_Load-Query.c:120-145 *)
  De "SABP_Load_Query" ["SEQUENCE"; "SEQUENCE"; "SEQUENCE"; "SEQUENCE"] (Of "SEQUENCE") [El false 0 "SABP_Load_Query" ["load_Query_ies"] "SABP_Load-Query:load_Query_ies_2" "A_SEQUENCE_OF"] (SpSeq "SABP_Load_Query" ("SABP_Load_Query", "_asn_ctx") [] 0 0);
  (* src/sabp/SABP_Message-Identifier.c:147-171 *)
  De "SABP_Message_Identifier" ["BIT_STRING"; "BIT_STRING"; "BIT_STRING"; "BIT_STRING"] (Cast "BIT_STRING_t") [] (SpNone);
  (* src/sabp/SABP_Message-Status-Query-Complete.c:66-92 *)
  De "SABP_Message-Status-Query-Complete:message_Status_Query_Complete_ies_2" ["SEQUENCE_OF"; "SEQUENCE_OF"; "SEQUENCE_OF"; "SEQUENCE_OF"] (Of "SEQUENCE_OF") [El true 0 "" [] "SABP_IE" ""] (SpList "SABP_Message_Status_Query_Complete__message_Status_Query_Complete_ies" ("SABP_Message_Status_Query_Complete__message_Status_Query_Complete_ies", "_asn_ctx"));
  (* src/sabp/SABP_Message-Status-Query-Complete.c:120-145 *)
  De "SABP_Message_Status_Query_Complete" ["SEQUENCE"; "SEQUENCE"; "SEQUENCE"; "SEQUENCE"] (Of "SEQUENCE") [El false 0 "SABP_Message_Status_Query_Complete" ["message_Status_Query_Complete_ies"] "SABP_Message-Status-Query-Complete:message_Status_Query_Complete_ies_2" "A_SEQUENCE_OF"] (SpSeq "SABP_Message_Status_Query_Complete" ("SABP_Message_Status_Query_Complete", "_asn_ctx") [] 0 0);
  (* src/sabp/SABP_Message-Status-Query-Failure.c:66-92 *)
  De "SABP_Message-Status-Query-Failure:message_Status_Query_Failure_ies_2" ["SEQUENCE_OF"; "SEQUENCE_OF"; "SEQUENCE_OF"; "SEQUENCE_OF"] (Of "SEQUENCE_OF") [El true 0 "" [] "SABP_IE" ""] (SpList "SABP_Message_Status_Query_Failure__message_Status_Query_Failure_ies" ("SABP_Message_Status_Query_Failure__message_Status_Query_Failure_ies", "_asn_ctx"));
  (* src/sabp/SABP_Message-Status-Query-Failure.c:120-145 *)
  De "SABP_Message_Status_Query_Failure" ["SEQUENCE"; "SEQUENCE"; "SEQUENCE"; "SEQUENCE"] (Of "SEQUENCE") [El false 0 "SABP_Message_Status_Query_Failure" ["message_Status_Query_Failure_ies"] "SABP_Message-Status-Query-Failure:message_Status_Query_Failure_ies_2" "A_SEQUENCE_OF"] (SpSeq "SABP_Message_Status_Query_Failure" ("SABP_Message_Status_Query_Failure", "_asn_ctx") [] 0 0);
  (* src/sabp/SABP_Message-Status-Query.c:66-92 *)
  De "SABP_Message-Status-Query:message_Status_Query_ies_2" ["SEQUENCE_OF"; "SEQUENCE_OF"; "SEQUENCE_OF"; "SEQUENCE_OF"] (Of "SEQUENCE_OF") [El true 0 "" [] "SABP_IE" ""] (SpList "SABP_Message_Status_Query__message_Status_Query_ies" ("SABP_Message_Status_Query__message_Status_Query_ies", "_asn_ctx"));
  (* src/sabp/SABP_Message-Status-Query.c:120-145 *)
  De "SABP_Message_Status_Query" ["SEQUENCE"; "SEQUENCE"; "SEQUENCE"; "SEQUENCE"] (Of "SEQUENCE") [El false 0 "SABP_Message_Status_Query" ["message_Status_Query_ies"] "SABP_Message-Status-Query:message_Status_Query_ies_2" "A_SEQUENCE_OF"] (SpSeq "SABP_Message_Status_Query" ("SABP_Message_Status_Query", "_asn_ctx") [] 0 0);
  (* src/sabp/SABP_MessageStructure-Value.c:58-83 *)
  De "SABP_MessageStructure_Value" ["SEQUENCE"; "SEQUENCE"; "SEQUENCE"; "SEQUENCE"] (Of "SEQUENCE") [El false 0 "SABP_MessageStructure_Value" ["iE_ID"] "SABP_ProtocolIE_ID" "";
    El true 2 "SABP_MessageStructure_Value" ["repetitionNumber"] "SABP_RepetitionNumber1" "";
    El true 1 "SABP_MessageStructure_Value" ["iE_Extensions"] "SABP_IE_Extensions" ""] (SpSeq "SABP_MessageStructure_Value" ("SABP_MessageStructure_Value", "_asn_ctx") [1; 2] 2 0);
  (* src/sabp/SABP_MessageStructure.c:34-59 *)
  De "SABP_MessageStructure" ["SEQUENCE_OF"; "SEQUENCE_OF"; "SEQUENCE_OF"; "SEQUENCE_OF"] (Of "SEQUENCE_OF") [El true 0 "" [] "SABP_MessageStructure_Value" ""] (SpList "SABP_MessageStructure" ("SABP_MessageStructure", "_asn_ctx"));
  (* src/sabp/SABP_New-Serial-Number.c:135-157 *)
  De "SABP_New_Serial_Number" ["SABP_Serial_Number"; "SABP_Serial_Number"; "SABP_Serial_Number"; "SABP_Serial_Number"] (Of "SABP_Serial_Number") [] (SpNone);
  (* src/sabp/SABP_Number-Of-Broadcasts-Completed-Info.c:143-167 *)
  De "SABP_Number_Of_Broadcasts_Completed_Info" ["NativeEnumerated"; "NativeEnumerated"; "NativeEnumerated"; "NativeEnumerated"] (Of "NativeEnumerated") [] (SpInt false);
  (* src/sabp/SABP_Number-of-Broadcasts-Completed-List-Item.c:98-123 *)
  De "SABP_Number_of_Broadcasts_Completed_List_Item" ["SEQUENCE"; "SEQUENCE"; "SEQUENCE"; "SEQUENCE"] (Of "SEQUENCE") [El false 0 "SABP_Number_of_Broadcasts_Completed_List_Item" ["service_area_identifier"] "SABP_Service_Area_Identifier" "";
    El false 0 "SABP_Number_of_Broadcasts_Completed_List_Item" ["number_of_broadcasts_completed"] "NativeInteger" "long";
    El true 2 "SABP_Number_of_Broadcasts_Completed_List_Item" ["number_of_broadcasts_completed_info"] "SABP_Number_Of_Broadcasts_Completed_Info" "";
    El true 1 "SABP_Number_of_Broadcasts_Completed_List_Item" ["iE_Extensions"] "SABP_IE_Extensions" ""] (SpSeq "SABP_Number_of_Broadcasts_Completed_List_Item" ("SABP_Number_of_Broadcasts_Completed_List_Item", "_asn_ctx") [2; 3] 2 0);
  (* src/sabp/SABP_Number-of-Broadcasts-Completed-List.c:34-59 *)
  De "SABP_Number_of_Broadcasts_Completed_List" ["SEQUENCE_OF"; "SEQUENCE_OF"; "SEQUENCE_OF"; "SEQUENCE_OF"] (Of "SEQUENCE_OF") [El true 0 "" [] "SABP_Number_of_Broadcasts_Completed_List_Item" ""] (SpList "SABP_Number_of_Broadcasts_Completed_List" ("SABP_Number_of_Broadcasts_Completed_List", "_asn_ctx"));
  (* src/sabp/SABP_Number-of-Broadcasts-Requested.c:141-165 *)
  De "SABP_Number_of_Broadcasts_Requested" ["NativeInteger"; "NativeInteger"; "NativeInteger"; "NativeInteger"] (Cast "long") [] (SpNone);
  (* src/sabp/SABP_Old-Serial-Number.c:135-157 *)
  De "SABP_Old_Serial_Number" ["SABP_Serial_Number"; "SABP_Serial_Number"; "SABP_Serial_Number"; "SABP_Serial_Number"] (Of "SABP_Serial_Number") [] (SpNone);
  (* src/sabp/SABP_Paging-ETWS-Indicator.c:141-165 *)
  De "SABP_Paging_ETWS_Indicator" ["NativeEnumerated"; "NativeEnumerated"; "NativeEnumerated"; "NativeEnumerated"] (Of "NativeEnumerated") [] (SpInt false);
  (* src/sabp/SABP_Presence.c:143-167 *)
  De "SABP_Presence" ["NativeEnumerated"; "NativeEnumerated"; "NativeEnumerated"; "NativeEnumerated"] (Of "NativeEnumerated") [] (SpInt false);
  (* src/sabp/SABP_ProcedureCode.c:141-165 *)
  De "SABP_ProcedureCode" ["NativeInteger"; "NativeInteger"; "NativeInteger"; "NativeInteger"] (Cast "long") [] (SpNone);
  (* src/sabp/SABP_ProtocolExtensionID.c:141-165 *)
  De "SABP_ProtocolExtensionID" ["NativeInteger"; "NativeInteger"; "NativeInteger"; "NativeInteger"] (Cast "long") [] (SpNone);
  (* src/sabp/SABP_ProtocolIE-ID.c:141-165 *)
  De "SABP_ProtocolIE_ID" ["NativeInteger"; "NativeInteger"; "NativeInteger"; "NativeInteger"] (Cast "long") [] (SpNone);
  (* src/sabp/SABP_Radio-Resource-Loading-List-Item.c:58-83 *)
  De "SABP_Radio_Resource_Loading_List_Item" ["SEQUENCE"; "SEQUENCE"; "SEQUENCE"; "SEQUENCE"] (Of "SEQUENCE") [El false 0 "SABP_Radio_Resource_Loading_List_Item" ["service_area_identifier"] "SABP_Service_Area_Identifier" "";
    El false 0 "SABP_Radio_Resource_Loading_List_Item" ["available_bandwidth"] "SABP_Available_Bandwidth" "";
    El true 1 "SABP_Radio_Resource_Loading_List_Item" ["iE_Extensions"] "SABP_IE_Extensions" ""] (SpSeq "SABP_Radio_Resource_Loading_List_Item" ("SABP_Radio_Resource_Loading_List_Item", "_asn_ctx") [2] 1 0);
  (* src/sabp/SABP_Radio-Resource-Loading-List.c:34-59 *)
  De "SABP_Radio_Resource_Loading_List" ["SEQUENCE_OF"; "SEQUENCE_OF"; "SEQUENCE_OF"; "SEQUENCE_OF"] (Of "SEQUENCE_OF") [El true 0 "" [] "SABP_Radio_Resource_Loading_List_Item" ""] (SpList "SABP_Radio_Resource_Loading_List" ("SABP_Radio_Resource_Loading_List", "_asn_ctx"));
  (* src/sabp/SABP_Recovery-Indication.c:141-165 *)
  De "SABP_Recovery_Indication" ["NativeEnumerated"; "NativeEnumerated"; "NativeEnumerated"; "NativeEnumerated"] (Of "NativeEnumerated") [] (SpInt false);
  (* src/sabp/SABP_Repetition-Period.c:141-165 *)
  De "SABP_Repetition_Period" ["NativeInteger"; "NativeInteger"; "NativeInteger"; "NativeInteger"] (Cast "long") [] (SpNone);
  (* src/sabp/SABP_RepetitionNumber0.c:141-165 *)
  De "SABP_RepetitionNumber0" ["NativeInteger"; "NativeInteger"; "NativeInteger"; "NativeInteger"] (Cast "long") [] (SpNone);
  (* src/sabp/SABP_RepetitionNumber1.c:141-165 *)
  De "SABP_RepetitionNumber1" ["NativeInteger"; "NativeInteger"; "NativeInteger"; "NativeInteger"] (Cast "long") [] (SpNone);
  (* src/sabp/SABP_Reset-Complete.c:66-92 *)
  De "SABP_Reset-Complete:reset_Complete_ies_2" ["SEQUENCE_OF"; "SEQUENCE_OF"; "SEQUENCE_OF"; "SEQUENCE_OF"] (Of "SEQUENCE_OF") [El true 0 "" [] "SABP_IE" ""] (SpList "SABP_Reset_Complete__reset_Complete_ies" ("SABP_Reset_Complete__reset_Complete_ies", "_asn_ctx"));
  (* src/sabp/SABP_Reset-Complete.c:120-145 *)
  De "SABP_Reset_Complete" ["SEQUENCE"; "SEQUENCE"; "SEQUENCE"; "SEQUENCE"] (Of "SEQUENCE") [El false 0 "SABP_Reset_Complete" ["reset_Complete_ies"] "SABP_Reset-Complete:reset_Complete_ies_2" "A_SEQUENCE_OF"] (SpSeq "SABP_Reset_Complete" ("SABP_Reset_Complete", "_asn_ctx") [] 0 0);
  (* src/sabp/SABP_Reset-Failure.c:66-92 *)
  De "SABP_Reset-Failure:reset_Failure_ies_2" ["SEQUENCE_OF"; "SEQUENCE_OF"; "SEQUENCE_OF"; "SEQUENCE_OF"] (Of "SEQUENCE_OF") [El true 0 "" [] "SABP_IE" ""] (SpList "SABP_Reset_Failure__reset_Failure_ies" ("SABP_Reset_Failure__reset_Failure_ies", "_asn_ctx"));
  (* src/sabp/SABP_Reset-Failure.c:120-145 *)
  De "SABP_Reset_Failure" ["SEQUENCE"; "SEQUENCE"; "SEQUENCE"; "SEQUENCE"] (Of "SEQUENCE") [El false 0 "SABP_Reset_Failure" ["reset_Failure_ies"] "SABP_Reset-Failure:reset_Failure_ies_2" "A_SEQUENCE_OF"] (SpSeq "SABP_Reset_Failure" ("SABP_Reset_Failure", "_asn_ctx") [] 0 0);
  (* src/sabp/SABP_Reset.c:66-92 *)
  De "SABP_Reset:reset_ies_2" ["SEQUENCE_OF"; "SEQUENCE_OF"; "SEQUENCE_OF"; "SEQUENCE_OF"] (Of "SEQUENCE_OF") [El true 0 "" [] "SABP_IE" ""] (SpList "SABP_Reset__reset_ies" ("SABP_Reset__reset_ies", "_asn_ctx"));
  (* src/sabp/SABP_Reset.c:120-145 *)
  De "SABP_Reset" ["SEQUENCE"; "SEQUENCE"; "SEQUENCE"; "SEQUENCE"] (Of "SEQUENCE") [El false 0 "SABP_Reset" ["reset_ies"] "SABP_Reset:reset_ies_2" "A_SEQUENCE_OF"] (SpSeq "SABP_Reset" ("SABP_Reset", "_asn_ctx") [] 0 0);
  (* src/sabp/SABP_Restart.c:66-92 *)
  De "SABP_Restart:restart_ies_2" ["SEQUENCE_OF"; "SEQUENCE_OF"; "SEQUENCE_OF"; "SEQUENCE_OF"] (Of "SEQUENCE_OF") [El true 0 "" [] "SABP_IE" ""] (SpList "SABP_Restart__restart_ies" ("SABP_Restart__restart_ies", "_asn_ctx"));
  (* src/sabp/SABP_Restart.c:120-145 *)
  De "SABP_Restart" ["SEQUENCE"; "SEQUENCE"; "SEQUENCE"; "SEQUENCE"] (Of "SEQUENCE") [El false 0 "SABP_Restart" ["restart_ies"] "SABP_Restart:restart_ies_2" "A_SEQUENCE_OF"] (SpSeq "SABP_Restart" ("SABP_Restart", "_asn_ctx") [] 0 0);
  (* src/sabp/SABP_SABP-PDU.c:59-82 *)
  De "SABP_SABP_PDU" ["CHOICE"; "CHOICE"; "CHOICE"; "CHOICE"] (Of "CHOICE") [El false 0 "SABP_SABP_PDU" ["choice"; "initiatingMessage"] "SABP_InitiatingMessage" "";
    El false 0 "SABP_SABP_PDU" ["choice"; "successfulOutcome"] "SABP_SuccessfulOutcome" "";
    El false 0 "SABP_SABP_PDU" ["choice"; "unsuccessfulOutcome"] "SABP_UnsuccessfulOutcome" ""] (SpChoice "SABP_SABP_PDU" ("SABP_SABP_PDU", "_asn_ctx") ("SABP_SABP_PDU", "present") ("SABP_SABP_PDU", "present"));
  (* src/sabp/SABP_Serial-Number.c:147-171 *)
  De "SABP_Serial_Number" ["BIT_STRING"; "BIT_STRING"; "BIT_STRING"; "BIT_STRING"] (Cast "BIT_STRING_t") [] (SpNone);
  (* src/sabp/SABP_Service-Area-Identifier.c:149-174 *)
  De "SABP_Service_Area_Identifier" ["SEQUENCE"; "SEQUENCE"; "SEQUENCE"; "SEQUENCE"] (Of "SEQUENCE") [El false 0 "SABP_Service_Area_Identifier" ["pLMNidentity"] "OCTET_STRING" "OCTET_STRING_t";
    El false 0 "SABP_Service_Area_Identifier" ["lac"] "OCTET_STRING" "OCTET_STRING_t";
    El false 0 "SABP_Service_Area_Identifier" ["sac"] "OCTET_STRING" "OCTET_STRING_t"] (SpSeq "SABP_Service_Area_Identifier" ("SABP_Service_Area_Identifier", "_asn_ctx") [] 0 0);
  (* src/sabp/SABP_Service-Areas-List.c:34-59 *)
  De "SABP_Service_Areas_List" ["SEQUENCE_OF"; "SEQUENCE_OF"; "SEQUENCE_OF"; "SEQUENCE_OF"] (Of "SEQUENCE_OF") [El true 0 "" [] "SABP_Service_Area_Identifier" ""] (SpList "SABP_Service_Areas_List" ("SABP_Service_Areas_List", "_asn_ctx"));
  (* src/sabp/SABP_SuccessfulOutcome.c:56-81 *)
  De "SABP_SuccessfulOutcome" ["SEQUENCE"; "SEQUENCE"; "SEQUENCE"; "SEQUENCE"] (Of "SEQUENCE") [El false 0 "SABP_SuccessfulOutcome" ["procedureCode"] "SABP_ProcedureCode" "";
    El false 0 "SABP_SuccessfulOutcome" ["criticality"] "SABP_Criticality" "";
    El false 0 "SABP_SuccessfulOutcome" ["value"] "ANY" ""] (SpSeq "SABP_SuccessfulOutcome" ("SABP_SuccessfulOutcome", "_asn_ctx") [] 0 0);
  (* src/sabp/SABP_TriggeringMessage.c:145-169 *)
  De "SABP_TriggeringMessage" ["NativeEnumerated"; "NativeEnumerated"; "NativeEnumerated"; "NativeEnumerated"] (Of "NativeEnumerated") [] (SpInt false);
  (* src/sabp/SABP_TypeOfError.c:143-167 *)
  De "SABP_TypeOfError" ["NativeEnumerated"; "NativeEnumerated"; "NativeEnumerated"; "NativeEnumerated"] (Of "NativeEnumerated") [] (SpInt false);
  (* src/sabp/SABP_UnsuccessfulOutcome.c:56-81 *)
  De "SABP_UnsuccessfulOutcome" ["SEQUENCE"; "SEQUENCE"; "SEQUENCE"; "SEQUENCE"] (Of "SEQUENCE") [El false 0 "SABP_UnsuccessfulOutcome" ["procedureCode"] "SABP_ProcedureCode" "";
    El false 0 "SABP_UnsuccessfulOutcome" ["criticality"] "SABP_Criticality" "";
    El false 0 "SABP_UnsuccessfulOutcome" ["value"] "ANY" ""] (SpSeq "SABP_UnsuccessfulOutcome" ("SABP_UnsuccessfulOutcome", "_asn_ctx") [] 0 0);
  (* src/sabp/SABP_Warning-Type.c:142-166 *)
  De "SABP_Warning_Type" ["OCTET_STRING"; "OCTET_STRING"; "OCTET_STRING"; "OCTET_STRING"] (Cast "OCTET_STRING_t") [] (SpNone);
  (* src/sabp/SABP_WarningSecurityInfo.c:142-166 *)
  De "SABP_WarningSecurityInfo" ["OCTET_STRING"; "OCTET_STRING"; "OCTET_STRING"; "OCTET_STRING"] (Cast "OCTET_STRING_t") [] (SpNone);
  (* src/sabp/SABP_Write-Replace-Complete.c:66-92 *)
  De "SABP_Write-Replace-Complete:write_Replace_Complete_ies_2" ["SEQUENCE_OF"; "SEQUENCE_OF"; "SEQUENCE_OF"; "SEQUENCE_OF"] (Of "SEQUENCE_OF") [El true 0 "" [] "SABP_IE" ""] (SpList "SABP_Write_Replace_Complete__write_Replace_Complete_ies" ("SABP_Write_Replace_Complete__write_Replace_Complete_ies", "_asn_ctx"));
  (* src/sabp/SABP_Write-Replace-Complete.c:120-145 *)
  De "SABP_Write_Replace_Complete" ["SEQUENCE"; "SEQUENCE"; "SEQUENCE"; "SEQUENCE"] (Of "SEQUENCE") [El false 0 "SABP_Write_Replace_Complete" ["write_Replace_Complete_ies"] "SABP_Write-Replace-Complete:write_Replace_Complete_ies_2" "A_SEQUENCE_OF"] (SpSeq "SABP_Write_Replace_Complete" ("SABP_Write_Replace_Complete", "_asn_ctx") [] 0 0);
  (* src/sabp/SABP_Write-Replace-Failure.c:66-92 *)
  De "SABP_Write-Replace-Failure:write_Replace_Failure_ies_2" ["SEQUENCE_OF"; "SEQUENCE_OF"; "SEQUENCE_OF"; "SEQUENCE_OF"] (Of "SEQUENCE_OF") [El true 0 "" [] "SABP_IE" ""] (SpList "SABP_Write_Replace_Failure__write_Replace_Failure_ies" ("SABP_Write_Replace_Failure__write_Replace_Failure_ies", "_asn_ctx"));
  (* src/sabp/SABP_Write-Replace-Failure.c:120-145 *)
  De "SABP_Write_Replace_Failure" ["SEQUENCE"; "SEQUENCE"; "SEQUENCE"; "SEQUENCE"] (Of "SEQUENCE") [El false 0 "SABP_Write_Replace_Failure" ["write_Replace_Failure_ies"] "SABP_Write-Replace-Failure:write_Replace_Failure_ies_2" "A_SEQUENCE_OF"] (SpSeq "SABP_Write_Replace_Failure" ("SABP_Write_Replace_Failure", "_asn_ctx") [] 0 0);
  (* src/sabp/SABP_Write-Replace.c:66-92 *)
  De "SABP_Write-Replace:write_Replace_ies_2" ["SEQUENCE_OF"; "SEQUENCE_OF"; "SEQUENCE_OF"; "SEQUENCE_OF"] (Of "SEQUENCE_OF") [El true 0 "" [] "SABP_IE" ""] (SpList "SABP_Write_Replace__write_Replace_ies" ("SABP_Write_Replace__write_Replace_ies", "_asn_ctx"));
  (* src/sabp/SABP_Write-Replace.c:120-145 *)
  De "SABP_Write_Replace" ["SEQUENCE"; "SEQUENCE"; "SEQUENCE"; "SEQUENCE"] (Of "SEQUENCE") [El false 0 "SABP_Write_Replace" ["write_Replace_ies"] "SABP_Write-Replace:write_Replace_ies_2" "A_SEQUENCE_OF"] (SpSeq "SABP_Write_Replace" ("SABP_Write_Replace", "_asn_ctx") [] 0 0) ].

