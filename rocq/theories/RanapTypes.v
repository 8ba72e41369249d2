(* Generated by a script from the descriptors of src/ranap/*.c: each definition
   is one asn_TYPE_descriptor_t with its member table and PER constraints.
   Optional components are marked true. *)
From Verif Require Import Base Aper.
From Coq Require Import String.
Local Open Scope Z_scope.

(* src/ranap/RANAP_APN.c:142-166 asn_DEF_RANAP_APN *)
Definition T_RANAP_APN : ty := TOcts (Some (mkCon false 1 255)).
(* src/ranap/RANAP_AccuracyFulfilmentIndicator.c:143-167 asn_DEF_RANAP_AccuracyFulfilmentIndicator *)
Definition T_RANAP_AccuracyFulfilmentIndicator : ty := TEnum true [0; 1] [].
(* src/ranap/RANAP_PriorityLevel.c:141-165 asn_DEF_RANAP_PriorityLevel *)
Definition T_RANAP_PriorityLevel : ty := TInt (Some (mkCon false 0 15)).
(* src/ranap/RANAP_Pre-emptionCapability.c:141-165 asn_DEF_RANAP_Pre_emptionCapability *)
Definition T_RANAP_Pre_emptionCapability : ty := TEnum false [0; 1] [].
(* src/ranap/RANAP_Pre-emptionVulnerability.c:141-165 asn_DEF_RANAP_Pre_emptionVulnerability *)
Definition T_RANAP_Pre_emptionVulnerability : ty := TEnum false [0; 1] [].
(* src/ranap/RANAP_QueuingAllowed.c:141-165 asn_DEF_RANAP_QueuingAllowed *)
Definition T_RANAP_QueuingAllowed : ty := TEnum false [0; 1] [].
(* src/ranap/RANAP_ProtocolIE-ID.c:141-165 asn_DEF_RANAP_ProtocolIE_ID *)
Definition T_RANAP_ProtocolIE_ID : ty := TInt (Some (mkCon false 0 65535)).
(* src/ranap/RANAP_Criticality.c:143-167 asn_DEF_RANAP_Criticality *)
Definition T_RANAP_Criticality : ty := TEnum false [0; 1; 2] [].
(* src/ranap/RANAP_IE.c:56-81 asn_DEF_RANAP_IE *)
Definition T_RANAP_IE : ty := TSeq false
    [(false, T_RANAP_ProtocolIE_ID); (false, T_RANAP_Criticality); (false, (TOcts None))]
    [].
(* src/ranap/RANAP_IE-Extensions.c:34-59 asn_DEF_RANAP_IE_Extensions *)
Definition T_RANAP_IE_Extensions : ty := TSeqOf (Some (mkCon false 1 65535)) T_RANAP_IE.
(* src/ranap/RANAP_AllocationOrRetentionPriority.c:78-103 asn_DEF_RANAP_AllocationOrRetentionPriority *)
Definition T_RANAP_AllocationOrRetentionPriority : ty := TSeq true
    [(false, T_RANAP_PriorityLevel); (false, T_RANAP_Pre_emptionCapability); (false, T_RANAP_Pre_emptionVulnerability); (false, T_RANAP_QueuingAllowed); (true, T_RANAP_IE_Extensions)]
    [].
(* src/ranap/RANAP_Alt-RAB-Parameter-GuaranteedBitrateType.c:145-169 asn_DEF_RANAP_Alt_RAB_Parameter_GuaranteedBitrateType *)
Definition T_RANAP_Alt_RAB_Parameter_GuaranteedBitrateType : ty := TEnum true [0; 1; 2] [].
(* src/ranap/RANAP_ExtendedGuaranteedBitrate.c:141-165 asn_DEF_RANAP_ExtendedGuaranteedBitrate *)
Definition T_RANAP_ExtendedGuaranteedBitrate : ty := TInt (Some (mkCon false 16000001 256000000)).
(* src/ranap/RANAP_Alt-RAB-Parameter-ExtendedGuaranteedBitrateList.c:34-59 asn_DEF_RANAP_Alt_RAB_Parameter_ExtendedGuaranteedBitrateList *)
Definition T_RANAP_Alt_RAB_Parameter_ExtendedGuaranteedBitrateList : ty := TSeqOf (Some (mkCon false 1 2)) T_RANAP_ExtendedGuaranteedBitrate.
(* src/ranap/RANAP_Alt-RAB-Parameter-ExtendedGuaranteedBitrates.c:34-59 asn_DEF_RANAP_Alt_RAB_Parameter_ExtendedGuaranteedBitrates *)
Definition T_RANAP_Alt_RAB_Parameter_ExtendedGuaranteedBitrates : ty := TSeqOf (Some (mkCon false 1 16)) T_RANAP_Alt_RAB_Parameter_ExtendedGuaranteedBitrateList.
(* src/ranap/RANAP_Alt-RAB-Parameter-ExtendedGuaranteedBitrateInf.c:48-73 asn_DEF_RANAP_Alt_RAB_Parameter_ExtendedGuaranteedBitrateInf *)
Definition T_RANAP_Alt_RAB_Parameter_ExtendedGuaranteedBitrateInf : ty := TSeq true
    [(false, T_RANAP_Alt_RAB_Parameter_GuaranteedBitrateType); (true, T_RANAP_Alt_RAB_Parameter_ExtendedGuaranteedBitrates)]
    [].
(* src/ranap/RANAP_Alt-RAB-Parameter-MaxBitrateType.c:145-169 asn_DEF_RANAP_Alt_RAB_Parameter_MaxBitrateType *)
Definition T_RANAP_Alt_RAB_Parameter_MaxBitrateType : ty := TEnum true [0; 1; 2] [].
(* src/ranap/RANAP_ExtendedMaxBitrate.c:141-165 asn_DEF_RANAP_ExtendedMaxBitrate *)
Definition T_RANAP_ExtendedMaxBitrate : ty := TInt (Some (mkCon false 16000001 256000000)).
(* src/ranap/RANAP_Alt-RAB-Parameter-ExtendedMaxBitrateList.c:34-59 asn_DEF_RANAP_Alt_RAB_Parameter_ExtendedMaxBitrateList *)
Definition T_RANAP_Alt_RAB_Parameter_ExtendedMaxBitrateList : ty := TSeqOf (Some (mkCon false 1 2)) T_RANAP_ExtendedMaxBitrate.
(* src/ranap/RANAP_Alt-RAB-Parameter-ExtendedMaxBitrates.c:34-59 asn_DEF_RANAP_Alt_RAB_Parameter_ExtendedMaxBitrates *)
Definition T_RANAP_Alt_RAB_Parameter_ExtendedMaxBitrates : ty := TSeqOf (Some (mkCon false 1 16)) T_RANAP_Alt_RAB_Parameter_ExtendedMaxBitrateList.
(* src/ranap/RANAP_Alt-RAB-Parameter-ExtendedMaxBitrateInf.c:48-73 asn_DEF_RANAP_Alt_RAB_Parameter_ExtendedMaxBitrateInf *)
Definition T_RANAP_Alt_RAB_Parameter_ExtendedMaxBitrateInf : ty := TSeq true
    [(false, T_RANAP_Alt_RAB_Parameter_MaxBitrateType); (true, T_RANAP_Alt_RAB_Parameter_ExtendedMaxBitrates)]
    [].
(* src/ranap/RANAP_GuaranteedBitrate.c:141-165 asn_DEF_RANAP_GuaranteedBitrate *)
Definition T_RANAP_GuaranteedBitrate : ty := TInt (Some (mkCon false 0 16000000)).
(* src/ranap/RANAP_Alt-RAB-Parameter-GuaranteedBitrateList.c:34-59 asn_DEF_RANAP_Alt_RAB_Parameter_GuaranteedBitrateList *)
Definition T_RANAP_Alt_RAB_Parameter_GuaranteedBitrateList : ty := TSeqOf (Some (mkCon false 1 2)) T_RANAP_GuaranteedBitrate.
(* src/ranap/RANAP_Alt-RAB-Parameter-GuaranteedBitrates.c:34-59 asn_DEF_RANAP_Alt_RAB_Parameter_GuaranteedBitrates *)
Definition T_RANAP_Alt_RAB_Parameter_GuaranteedBitrates : ty := TSeqOf (Some (mkCon false 1 16)) T_RANAP_Alt_RAB_Parameter_GuaranteedBitrateList.
(* src/ranap/RANAP_Alt-RAB-Parameter-GuaranteedBitrateInf.c:48-73 asn_DEF_RANAP_Alt_RAB_Parameter_GuaranteedBitrateInf *)
Definition T_RANAP_Alt_RAB_Parameter_GuaranteedBitrateInf : ty := TSeq true
    [(false, T_RANAP_Alt_RAB_Parameter_GuaranteedBitrateType); (true, T_RANAP_Alt_RAB_Parameter_GuaranteedBitrates)]
    [].
(* src/ranap/RANAP_MaxBitrate.c:141-165 asn_DEF_RANAP_MaxBitrate *)
Definition T_RANAP_MaxBitrate : ty := TInt (Some (mkCon false 1 16000000)).
(* src/ranap/RANAP_Alt-RAB-Parameter-MaxBitrateList.c:34-59 asn_DEF_RANAP_Alt_RAB_Parameter_MaxBitrateList *)
Definition T_RANAP_Alt_RAB_Parameter_MaxBitrateList : ty := TSeqOf (Some (mkCon false 1 2)) T_RANAP_MaxBitrate.
(* src/ranap/RANAP_Alt-RAB-Parameter-MaxBitrates.c:34-59 asn_DEF_RANAP_Alt_RAB_Parameter_MaxBitrates *)
Definition T_RANAP_Alt_RAB_Parameter_MaxBitrates : ty := TSeqOf (Some (mkCon false 1 16)) T_RANAP_Alt_RAB_Parameter_MaxBitrateList.
(* src/ranap/RANAP_Alt-RAB-Parameter-MaxBitrateInf.c:48-73 asn_DEF_RANAP_Alt_RAB_Parameter_MaxBitrateInf *)
Definition T_RANAP_Alt_RAB_Parameter_MaxBitrateInf : ty := TSeq true
    [(false, T_RANAP_Alt_RAB_Parameter_MaxBitrateType); (true, T_RANAP_Alt_RAB_Parameter_MaxBitrates)]
    [].
(* src/ranap/RANAP_SupportedBitrate.c:141-165 asn_DEF_RANAP_SupportedBitrate *)
Definition T_RANAP_SupportedBitrate : ty := TInt (Some (mkCon true 1 1000000000)).
(* src/ranap/RANAP_SupportedRAB-ParameterBitrateList.c:34-59 asn_DEF_RANAP_SupportedRAB_ParameterBitrateList *)
Definition T_RANAP_SupportedRAB_ParameterBitrateList : ty := TSeqOf (Some (mkCon false 1 2)) T_RANAP_SupportedBitrate.
(* src/ranap/RANAP_Alt-RAB-Parameter-SupportedGuaranteedBitrates.c:34-59 asn_DEF_RANAP_Alt_RAB_Parameter_SupportedGuaranteedBitrates *)
Definition T_RANAP_Alt_RAB_Parameter_SupportedGuaranteedBitrates : ty := TSeqOf (Some (mkCon false 1 16)) T_RANAP_SupportedRAB_ParameterBitrateList.
(* src/ranap/RANAP_Alt-RAB-Parameter-SupportedGuaranteedBitrateInf.c:58-83 asn_DEF_RANAP_Alt_RAB_Parameter_SupportedGuaranteedBitrateInf *)
Definition T_RANAP_Alt_RAB_Parameter_SupportedGuaranteedBitrateInf : ty := TSeq true
    [(false, T_RANAP_Alt_RAB_Parameter_GuaranteedBitrateType); (true, T_RANAP_Alt_RAB_Parameter_SupportedGuaranteedBitrates); (true, T_RANAP_IE_Extensions)]
    [].
(* src/ranap/RANAP_Alt-RAB-Parameter-SupportedMaxBitrates.c:34-59 asn_DEF_RANAP_Alt_RAB_Parameter_SupportedMaxBitrates *)
Definition T_RANAP_Alt_RAB_Parameter_SupportedMaxBitrates : ty := TSeqOf (Some (mkCon false 1 16)) T_RANAP_SupportedRAB_ParameterBitrateList.
(* src/ranap/RANAP_Alt-RAB-Parameter-SupportedMaxBitrateInf.c:58-83 asn_DEF_RANAP_Alt_RAB_Parameter_SupportedMaxBitrateInf *)
Definition T_RANAP_Alt_RAB_Parameter_SupportedMaxBitrateInf : ty := TSeq true
    [(false, T_RANAP_Alt_RAB_Parameter_MaxBitrateType); (true, T_RANAP_Alt_RAB_Parameter_SupportedMaxBitrates); (true, T_RANAP_IE_Extensions)]
    [].
(* src/ranap/RANAP_Alt-RAB-Parameters.c:58-83 asn_DEF_RANAP_Alt_RAB_Parameters *)
Definition T_RANAP_Alt_RAB_Parameters : ty := TSeq true
    [(true, T_RANAP_Alt_RAB_Parameter_MaxBitrateInf); (true, T_RANAP_Alt_RAB_Parameter_GuaranteedBitrateInf); (true, T_RANAP_IE_Extensions)]
    [].
(* src/ranap/RANAP_AlternativeRABConfigurationRequest.c:141-165 asn_DEF_RANAP_AlternativeRABConfigurationRequest *)
Definition T_RANAP_AlternativeRABConfigurationRequest : ty := TEnum true [0] [].
(* src/ranap/RANAP_PLMNidentity.c:142-166 asn_DEF_RANAP_PLMNidentity *)
Definition T_RANAP_PLMNidentity : ty := TOcts (Some (mkCon false 3 3)).
(* src/ranap/RANAP_LAC.c:142-166 asn_DEF_RANAP_LAC *)
Definition T_RANAP_LAC : ty := TOcts (Some (mkCon false 2 2)).
(* src/ranap/RANAP_SAC.c:142-166 asn_DEF_RANAP_SAC *)
Definition T_RANAP_SAC : ty := TOcts (Some (mkCon false 2 2)).
(* src/ranap/RANAP_SAI.c:68-93 asn_DEF_RANAP_SAI *)
Definition T_RANAP_SAI : ty := TSeq false
    [(false, T_RANAP_PLMNidentity); (false, T_RANAP_LAC); (false, T_RANAP_SAC); (true, T_RANAP_IE_Extensions)]
    [].
(* src/ranap/RANAP_GeographicalCoordinates.c:203-227 asn_DEF_latitudeSign_2 *)
Definition T_RANAP_GeographicalCoordinates__latitudeSign_2 : ty := TEnum false [0; 1] [].
(* src/ranap/RANAP_GeographicalCoordinates.c:287-312 asn_DEF_RANAP_GeographicalCoordinates *)
Definition T_RANAP_GeographicalCoordinates : ty := TSeq true
    [(false, T_RANAP_GeographicalCoordinates__latitudeSign_2); (false, (TInt (Some (mkCon false 0 8388607)))); (false, (TInt (Some (mkCon false (-8388608) 8388607)))); (true, T_RANAP_IE_Extensions)]
    [].
(* src/ranap/RANAP_GA-Point.c:48-73 asn_DEF_RANAP_GA_Point *)
Definition T_RANAP_GA_Point : ty := TSeq true
    [(false, T_RANAP_GeographicalCoordinates); (true, T_RANAP_IE_Extensions)]
    [].
(* src/ranap/RANAP_GA-PointWithUnCertainty.c:88-113 asn_DEF_RANAP_GA_PointWithUnCertainty *)
Definition T_RANAP_GA_PointWithUnCertainty : ty := TSeq false
    [(false, T_RANAP_GeographicalCoordinates); (true, T_RANAP_IE_Extensions); (false, (TInt (Some (mkCon false 0 127))))]
    [].
(* src/ranap/RANAP_GA-Polygon-Value.c:48-73 asn_DEF_RANAP_GA_Polygon_Value *)
Definition T_RANAP_GA_Polygon_Value : ty := TSeq true
    [(false, T_RANAP_GeographicalCoordinates); (true, T_RANAP_IE_Extensions)]
    [].
(* src/ranap/RANAP_GA-Polygon.c:34-59 asn_DEF_RANAP_GA_Polygon *)
Definition T_RANAP_GA_Polygon : ty := TSeqOf (Some (mkCon false 1 15)) T_RANAP_GA_Polygon_Value.
(* src/ranap/RANAP_GA-UncertaintyEllipse.c:146-171 asn_DEF_RANAP_GA_UncertaintyEllipse *)
Definition T_RANAP_GA_UncertaintyEllipse : ty := TSeq true
    [(false, (TInt (Some (mkCon false 0 127)))); (false, (TInt (Some (mkCon false 0 127)))); (false, (TInt (Some (mkCon false 0 179))))]
    [].
(* src/ranap/RANAP_GA-PointWithUnCertaintyEllipse.c:98-123 asn_DEF_RANAP_GA_PointWithUnCertaintyEllipse *)
Definition T_RANAP_GA_PointWithUnCertaintyEllipse : ty := TSeq true
    [(false, T_RANAP_GeographicalCoordinates); (false, T_RANAP_GA_UncertaintyEllipse); (false, (TInt (Some (mkCon false 0 127)))); (true, T_RANAP_IE_Extensions)]
    [].
(* src/ranap/RANAP_GA-AltitudeAndDirection.c:173-197 asn_DEF_directionOfAltitude_2 *)
Definition T_RANAP_GA_AltitudeAndDirection__directionOfAltitude_2 : ty := TEnum false [0; 1] [].
(* src/ranap/RANAP_GA-AltitudeAndDirection.c:235-260 asn_DEF_RANAP_GA_AltitudeAndDirection *)
Definition T_RANAP_GA_AltitudeAndDirection : ty := TSeq true
    [(false, T_RANAP_GA_AltitudeAndDirection__directionOfAltitude_2); (false, (TInt (Some (mkCon false 0 32767))))]
    [].
(* src/ranap/RANAP_GA-PointWithAltitude.c:58-83 asn_DEF_RANAP_GA_PointWithAltitude *)
Definition T_RANAP_GA_PointWithAltitude : ty := TSeq true
    [(false, T_RANAP_GeographicalCoordinates); (false, T_RANAP_GA_AltitudeAndDirection); (true, T_RANAP_IE_Extensions)]
    [].
(* src/ranap/RANAP_GA-PointWithAltitudeAndUncertaintyEllipsoid.c:148-173 asn_DEF_RANAP_GA_PointWithAltitudeAndUncertaintyEllipsoid *)
Definition T_RANAP_GA_PointWithAltitudeAndUncertaintyEllipsoid : ty := TSeq true
    [(false, T_RANAP_GeographicalCoordinates); (false, T_RANAP_GA_AltitudeAndDirection); (false, T_RANAP_GA_UncertaintyEllipse); (false, (TInt (Some (mkCon false 0 127)))); (false, (TInt (Some (mkCon false 0 127)))); (true, T_RANAP_IE_Extensions)]
    [].
(* src/ranap/RANAP_GA-EllipsoidArc.c:248-273 asn_DEF_RANAP_GA_EllipsoidArc *)
Definition T_RANAP_GA_EllipsoidArc : ty := TSeq true
    [(false, T_RANAP_GeographicalCoordinates); (false, (TInt (Some (mkCon false 0 65535)))); (false, (TInt (Some (mkCon false 0 127)))); (false, (TInt (Some (mkCon false 0 179)))); (false, (TInt (Some (mkCon false 0 179)))); (false, (TInt (Some (mkCon false 0 127)))); (true, T_RANAP_IE_Extensions)]
    [].
(* src/ranap/RANAP_GeographicalArea.c:99-122 asn_DEF_RANAP_GeographicalArea *)
Definition T_RANAP_GeographicalArea : ty := TChoice true
    [T_RANAP_GA_Point; T_RANAP_GA_PointWithUnCertainty; T_RANAP_GA_Polygon]
    [T_RANAP_GA_PointWithUnCertaintyEllipse; T_RANAP_GA_PointWithAltitude; T_RANAP_GA_PointWithAltitudeAndUncertaintyEllipsoid; T_RANAP_GA_EllipsoidArc].
(* src/ranap/RANAP_AreaIdentity.c:49-72 asn_DEF_RANAP_AreaIdentity *)
Definition T_RANAP_AreaIdentity : ty := TChoice true
    [T_RANAP_SAI; T_RANAP_GeographicalArea]
    [].
(* src/ranap/RANAP_Ass-RAB-Parameter-ExtendedGuaranteedBitrateList.c:34-59 asn_DEF_RANAP_Ass_RAB_Parameter_ExtendedGuaranteedBitrateList *)
Definition T_RANAP_Ass_RAB_Parameter_ExtendedGuaranteedBitrateList : ty := TSeqOf (Some (mkCon false 1 2)) T_RANAP_ExtendedGuaranteedBitrate.
(* src/ranap/RANAP_Ass-RAB-Parameter-ExtendedMaxBitrateList.c:34-59 asn_DEF_RANAP_Ass_RAB_Parameter_ExtendedMaxBitrateList *)
Definition T_RANAP_Ass_RAB_Parameter_ExtendedMaxBitrateList : ty := TSeqOf (Some (mkCon false 1 2)) T_RANAP_ExtendedMaxBitrate.
(* src/ranap/RANAP_Ass-RAB-Parameter-GuaranteedBitrateList.c:34-59 asn_DEF_RANAP_Ass_RAB_Parameter_GuaranteedBitrateList *)
Definition T_RANAP_Ass_RAB_Parameter_GuaranteedBitrateList : ty := TSeqOf (Some (mkCon false 1 2)) T_RANAP_GuaranteedBitrate.
(* src/ranap/RANAP_Ass-RAB-Parameter-MaxBitrateList.c:34-59 asn_DEF_RANAP_Ass_RAB_Parameter_MaxBitrateList *)
Definition T_RANAP_Ass_RAB_Parameter_MaxBitrateList : ty := TSeqOf (Some (mkCon false 1 2)) T_RANAP_MaxBitrate.
(* src/ranap/RANAP_Ass-RAB-Parameters.c:58-83 asn_DEF_RANAP_Ass_RAB_Parameters *)
Definition T_RANAP_Ass_RAB_Parameters : ty := TSeq true
    [(true, T_RANAP_Ass_RAB_Parameter_MaxBitrateList); (true, T_RANAP_Ass_RAB_Parameter_GuaranteedBitrateList); (true, T_RANAP_IE_Extensions)]
    [].
(* src/ranap/RANAP_SNAC.c:141-165 asn_DEF_RANAP_SNAC *)
Definition T_RANAP_SNAC : ty := TInt (Some (mkCon false 0 65535)).
(* src/ranap/RANAP_AuthorisedSNAs.c:34-59 asn_DEF_RANAP_AuthorisedSNAs *)
Definition T_RANAP_AuthorisedSNAs : ty := TSeqOf (Some (mkCon false 1 65536)) T_RANAP_SNAC.
(* src/ranap/RANAP_AuthorisedPLMNs-Value.c:58-83 asn_DEF_RANAP_AuthorisedPLMNs_Value *)
Definition T_RANAP_AuthorisedPLMNs_Value : ty := TSeq true
    [(false, T_RANAP_PLMNidentity); (true, T_RANAP_AuthorisedSNAs); (true, T_RANAP_IE_Extensions)]
    [].
(* src/ranap/RANAP_AuthorisedPLMNs.c:34-59 asn_DEF_RANAP_AuthorisedPLMNs *)
Definition T_RANAP_AuthorisedPLMNs : ty := TSeqOf (Some (mkCon false 1 32)) T_RANAP_AuthorisedPLMNs_Value.
(* src/ranap/RANAP_BindingID.c:142-166 asn_DEF_RANAP_BindingID *)
Definition T_RANAP_BindingID : ty := TOcts (Some (mkCon false 4 4)).
(* src/ranap/RANAP_BroadcastAssistanceDataDecipheringKeys.c:164-189 asn_DEF_RANAP_BroadcastAssistanceDataDecipheringKeys *)
Definition T_RANAP_BroadcastAssistanceDataDecipheringKeys : ty := TSeq true
    [(false, (TBits (Some (mkCon false 1 1)))); (false, (TBits (Some (mkCon false 56 56)))); (false, (TBits (Some (mkCon false 56 56))))]
    [].
(* src/ranap/RANAP_CI.c:142-166 asn_DEF_RANAP_CI *)
Definition T_RANAP_CI : ty := TOcts (Some (mkCon false 2 2)).
(* src/ranap/RANAP_CGI.c:68-93 asn_DEF_RANAP_CGI *)
Definition T_RANAP_CGI : ty := TSeq false
    [(false, T_RANAP_PLMNidentity); (false, T_RANAP_LAC); (false, T_RANAP_CI); (true, T_RANAP_IE_Extensions)]
    [].
(* src/ranap/RANAP_CN-DeactivateTrace.c:67-92 asn_DEF_cN_DeactivateTrace_ies_2 *)
Definition T_RANAP_CN_DeactivateTrace__cN_DeactivateTrace_ies_2 : ty := TSeqOf (Some (mkCon false 0 65535)) T_RANAP_IE.
(* src/ranap/RANAP_CN-DeactivateTrace.c:120-145 asn_DEF_RANAP_CN_DeactivateTrace *)
Definition T_RANAP_CN_DeactivateTrace : ty := TSeq true
    [(false, T_RANAP_CN_DeactivateTrace__cN_DeactivateTrace_ies_2)]
    [].
(* src/ranap/RANAP_CN-DomainIndicator.c:141-165 asn_DEF_RANAP_CN_DomainIndicator *)
Definition T_RANAP_CN_DomainIndicator : ty := TEnum false [0; 1] [].
(* src/ranap/RANAP_CN-ID.c:141-165 asn_DEF_RANAP_CN_ID *)
Definition T_RANAP_CN_ID : ty := TInt (Some (mkCon false 0 4095)).
(* src/ranap/RANAP_CN-InvokeTrace.c:67-92 asn_DEF_cN_InvokeTrace_ies_2 *)
Definition T_RANAP_CN_InvokeTrace__cN_InvokeTrace_ies_2 : ty := TSeqOf (Some (mkCon false 0 65535)) T_RANAP_IE.
(* src/ranap/RANAP_CN-InvokeTrace.c:120-145 asn_DEF_RANAP_CN_InvokeTrace *)
Definition T_RANAP_CN_InvokeTrace : ty := TSeq true
    [(false, T_RANAP_CN_InvokeTrace__cN_InvokeTrace_ies_2)]
    [].
(* src/ranap/RANAP_TMGI.c:89-114 asn_DEF_RANAP_TMGI *)
Definition T_RANAP_TMGI : ty := TSeq false
    [(false, T_RANAP_PLMNidentity); (false, (TOcts (Some (mkCon false 3 3)))); (true, T_RANAP_IE_Extensions)]
    [].
(* src/ranap/RANAP_MBMS-PTP-RAB-ID.c:147-171 asn_DEF_RANAP_MBMS_PTP_RAB_ID *)
Definition T_RANAP_MBMS_PTP_RAB_ID : ty := TBits (Some (mkCon false 8 8)).
(* src/ranap/RANAP_ProtocolExtensionField.c:56-81 asn_DEF_RANAP_ProtocolExtensionField *)
Definition T_RANAP_ProtocolExtensionField : ty := TSeq false
    [(false, T_RANAP_ProtocolIE_ID); (false, T_RANAP_Criticality); (false, (TOcts None))]
    [].
(* src/ranap/RANAP_ProtocolExtensionContainer.c:34-59 asn_DEF_RANAP_ProtocolExtensionContainer *)
Definition T_RANAP_ProtocolExtensionContainer : ty := TSeqOf (Some (mkCon false 1 65535)) T_RANAP_ProtocolExtensionField.
(* src/ranap/RANAP_JoinedMBMSBearerService-IEs-Value.c:58-83 asn_DEF_RANAP_JoinedMBMSBearerService_IEs_Value *)
Definition T_RANAP_JoinedMBMSBearerService_IEs_Value : ty := TSeq true
    [(false, T_RANAP_TMGI); (false, T_RANAP_MBMS_PTP_RAB_ID); (true, T_RANAP_ProtocolExtensionContainer)]
    [].
(* src/ranap/RANAP_JoinedMBMSBearerService-IEs.c:34-59 asn_DEF_RANAP_JoinedMBMSBearerService_IEs *)
Definition T_RANAP_JoinedMBMSBearerService_IEs : ty := TSeqOf (Some (mkCon false 1 128)) T_RANAP_JoinedMBMSBearerService_IEs_Value.
(* src/ranap/RANAP_CNMBMSLinkingInformation.c:48-73 asn_DEF_RANAP_CNMBMSLinkingInformation *)
Definition T_RANAP_CNMBMSLinkingInformation : ty := TSeq true
    [(false, T_RANAP_JoinedMBMSBearerService_IEs); (true, T_RANAP_ProtocolExtensionContainer)]
    [].
(* src/ranap/RANAP_CSFB-Information.c:143-167 asn_DEF_RANAP_CSFB_Information *)
Definition T_RANAP_CSFB_Information : ty := TEnum true [0; 1] [].
(* src/ranap/RANAP_CSG-Id.c:147-171 asn_DEF_RANAP_CSG_Id *)
Definition T_RANAP_CSG_Id : ty := TBits (Some (mkCon false 27 27)).
(* src/ranap/RANAP_CSG-Id-List.c:34-59 asn_DEF_RANAP_CSG_Id_List *)
Definition T_RANAP_CSG_Id_List : ty := TSeqOf (Some (mkCon false 1 256)) T_RANAP_CSG_Id.
(* src/ranap/RANAP_CSG-Membership-Status.c:143-167 asn_DEF_RANAP_CSG_Membership_Status *)
Definition T_RANAP_CSG_Membership_Status : ty := TEnum true [0; 1] [].
(* src/ranap/RANAP_CauseRadioNetwork.c:141-165 asn_DEF_RANAP_CauseRadioNetwork *)
Definition T_RANAP_CauseRadioNetwork : ty := TInt (Some (mkCon false 1 64)).
(* src/ranap/RANAP_CauseTransmissionNetwork.c:141-165 asn_DEF_RANAP_CauseTransmissionNetwork *)
Definition T_RANAP_CauseTransmissionNetwork : ty := TInt (Some (mkCon false 65 80)).
(* src/ranap/RANAP_CauseNAS.c:141-165 asn_DEF_RANAP_CauseNAS *)
Definition T_RANAP_CauseNAS : ty := TInt (Some (mkCon false 81 96)).
(* src/ranap/RANAP_CauseProtocol.c:141-165 asn_DEF_RANAP_CauseProtocol *)
Definition T_RANAP_CauseProtocol : ty := TInt (Some (mkCon false 97 112)).
(* src/ranap/RANAP_CauseMisc.c:141-165 asn_DEF_RANAP_CauseMisc *)
Definition T_RANAP_CauseMisc : ty := TInt (Some (mkCon false 113 128)).
(* src/ranap/RANAP_CauseNon-Standard.c:141-165 asn_DEF_RANAP_CauseNon_Standard *)
Definition T_RANAP_CauseNon_Standard : ty := TInt (Some (mkCon false 129 256)).
(* src/ranap/RANAP_CauseRadioNetworkExtension.c:141-165 asn_DEF_RANAP_CauseRadioNetworkExtension *)
Definition T_RANAP_CauseRadioNetworkExtension : ty := TInt (Some (mkCon false 257 512)).
(* src/ranap/RANAP_Cause.c:99-122 asn_DEF_RANAP_Cause *)
Definition T_RANAP_Cause : ty := TChoice true
    [T_RANAP_CauseRadioNetwork; T_RANAP_CauseTransmissionNetwork; T_RANAP_CauseNAS; T_RANAP_CauseProtocol; T_RANAP_CauseMisc; T_RANAP_CauseNon_Standard]
    [T_RANAP_CauseRadioNetworkExtension].
(* src/ranap/RANAP_Cell-Access-Mode.c:141-165 asn_DEF_RANAP_Cell_Access_Mode *)
Definition T_RANAP_Cell_Access_Mode : ty := TEnum true [0] [].
(* src/ranap/RANAP_Cell-Capacity-Class-Value.c:141-165 asn_DEF_RANAP_Cell_Capacity_Class_Value *)
Definition T_RANAP_Cell_Capacity_Class_Value : ty := TInt (Some (mkCon true 1 100)).
(* src/ranap/RANAP_Cell-Id.c:141-165 asn_DEF_RANAP_Cell_Id *)
Definition T_RANAP_Cell_Id : ty := TInt (Some (mkCon false 0 268435455)).
(* src/ranap/RANAP_CellIdList.c:34-59 asn_DEF_RANAP_CellIdList *)
Definition T_RANAP_CellIdList : ty := TSeqOf (Some (mkCon false 1 32)) T_RANAP_Cell_Id.
(* src/ranap/RANAP_CellBased.c:48-73 asn_DEF_RANAP_CellBased *)
Definition T_RANAP_CellBased : ty := TSeq true
    [(false, T_RANAP_CellIdList); (true, T_RANAP_IE_Extensions)]
    [].
(* src/ranap/RANAP_LoadValue.c:141-165 asn_DEF_RANAP_LoadValue *)
Definition T_RANAP_LoadValue : ty := TInt (Some (mkCon false 0 100)).
(* src/ranap/RANAP_RTLoadValue.c:141-165 asn_DEF_RANAP_RTLoadValue *)
Definition T_RANAP_RTLoadValue : ty := TInt (Some (mkCon false 0 100)).
(* src/ranap/RANAP_NRTLoadInformationValue.c:141-165 asn_DEF_RANAP_NRTLoadInformationValue *)
Definition T_RANAP_NRTLoadInformationValue : ty := TInt (Some (mkCon false 0 3)).
(* src/ranap/RANAP_CellLoadInformation.c:78-103 asn_DEF_RANAP_CellLoadInformation *)
Definition T_RANAP_CellLoadInformation : ty := TSeq true
    [(false, T_RANAP_Cell_Capacity_Class_Value); (false, T_RANAP_LoadValue); (true, T_RANAP_RTLoadValue); (true, T_RANAP_NRTLoadInformationValue); (true, T_RANAP_IE_Extensions)]
    [].
(* src/ranap/RANAP_TargetCellId.c:141-165 asn_DEF_RANAP_TargetCellId *)
Definition T_RANAP_TargetCellId : ty := TInt (Some (mkCon false 0 268435455)).
(* src/ranap/RANAP_SourceUTRANCellID.c:58-83 asn_DEF_RANAP_SourceUTRANCellID *)
Definition T_RANAP_SourceUTRANCellID : ty := TSeq false
    [(false, T_RANAP_PLMNidentity); (false, T_RANAP_TargetCellId); (true, T_RANAP_IE_Extensions)]
    [].
(* src/ranap/RANAP_SourceCellID.c:49-72 asn_DEF_RANAP_SourceCellID *)
Definition T_RANAP_SourceCellID : ty := TChoice true
    [T_RANAP_SourceUTRANCellID; T_RANAP_CGI]
    [].
(* src/ranap/RANAP_CellLoadInformationGroup.c:68-93 asn_DEF_RANAP_CellLoadInformationGroup *)
Definition T_RANAP_CellLoadInformationGroup : ty := TSeq true
    [(false, T_RANAP_SourceCellID); (true, T_RANAP_CellLoadInformation); (true, T_RANAP_CellLoadInformation); (true, T_RANAP_IE_Extensions)]
    [].
(* src/ranap/RANAP_CellType.c:147-171 asn_DEF_RANAP_CellType *)
Definition T_RANAP_CellType : ty := TEnum true [0; 1; 2; 3] [].
(* src/ranap/RANAP_ChosenEncryptionAlgorithm.c:135-157 asn_DEF_RANAP_ChosenEncryptionAlgorithm *)
Definition T_RANAP_ChosenEncryptionAlgorithm : ty := TInt (Some (mkCon false 0 15)).
(* src/ranap/RANAP_ChosenIntegrityProtectionAlgorithm.c:135-157 asn_DEF_RANAP_ChosenIntegrityProtectionAlgorithm *)
Definition T_RANAP_ChosenIntegrityProtectionAlgorithm : ty := TInt (Some (mkCon false 0 15)).
(* src/ranap/RANAP_ClassmarkInformation2.c:119-143 asn_DEF_RANAP_ClassmarkInformation2 *)
Definition T_RANAP_ClassmarkInformation2 : ty := TOcts None.
(* src/ranap/RANAP_ClassmarkInformation3.c:119-143 asn_DEF_RANAP_ClassmarkInformation3 *)
Definition T_RANAP_ClassmarkInformation3 : ty := TOcts None.
(* src/ranap/RANAP_ClientType.c:155-179 asn_DEF_RANAP_ClientType *)
Definition T_RANAP_ClientType : ty := TEnum true [0; 1; 2; 3; 4; 5; 6; 7] [].
(* src/ranap/RANAP_CommonID.c:67-92 asn_DEF_commonID_ies_2 *)
Definition T_RANAP_CommonID__commonID_ies_2 : ty := TSeqOf (Some (mkCon false 0 65535)) T_RANAP_IE.
(* src/ranap/RANAP_CommonID.c:120-145 asn_DEF_RANAP_CommonID *)
Definition T_RANAP_CommonID : ty := TSeq true
    [(false, T_RANAP_CommonID__commonID_ies_2)]
    [].
(* src/ranap/RANAP_Correlation-ID.c:142-166 asn_DEF_RANAP_Correlation_ID *)
Definition T_RANAP_Correlation_ID : ty := TOcts (Some (mkCon false 4 4)).
(* src/ranap/RANAP_RepetitionNumber0.c:141-165 asn_DEF_RANAP_RepetitionNumber0 *)
Definition T_RANAP_RepetitionNumber0 : ty := TInt (Some (mkCon false 0 255)).
(* src/ranap/RANAP_CriticalityDiagnostics-IE-List-Value.c:68-93 asn_DEF_RANAP_CriticalityDiagnostics_IE_List_Value *)
Definition T_RANAP_CriticalityDiagnostics_IE_List_Value : ty := TSeq true
    [(false, T_RANAP_Criticality); (false, T_RANAP_ProtocolIE_ID); (true, T_RANAP_RepetitionNumber0); (true, T_RANAP_IE_Extensions)]
    [].
(* src/ranap/RANAP_CriticalityDiagnostics-IE-List.c:34-59 asn_DEF_RANAP_CriticalityDiagnostics_IE_List *)
Definition T_RANAP_CriticalityDiagnostics_IE_List : ty := TSeqOf (Some (mkCon false 1 256)) T_RANAP_CriticalityDiagnostics_IE_List_Value.
(* src/ranap/RANAP_ProcedureCode.c:141-165 asn_DEF_RANAP_ProcedureCode *)
Definition T_RANAP_ProcedureCode : ty := TInt (Some (mkCon false 0 255)).
(* src/ranap/RANAP_TriggeringMessage.c:145-169 asn_DEF_RANAP_TriggeringMessage *)
Definition T_RANAP_TriggeringMessage : ty := TEnum false [0; 1; 2; 3] [].
(* src/ranap/RANAP_CriticalityDiagnostics.c:78-103 asn_DEF_RANAP_CriticalityDiagnostics *)
Definition T_RANAP_CriticalityDiagnostics : ty := TSeq true
    [(true, T_RANAP_ProcedureCode); (true, T_RANAP_TriggeringMessage); (true, T_RANAP_Criticality); (true, T_RANAP_CriticalityDiagnostics_IE_List); (true, T_RANAP_IE_Extensions)]
    [].
(* src/ranap/RANAP_D-RNTI.c:141-165 asn_DEF_RANAP_D_RNTI *)
Definition T_RANAP_D_RNTI : ty := TInt (Some (mkCon false 0 1048575)).
(* src/ranap/RANAP_DCH-ID.c:141-165 asn_DEF_RANAP_DCH_ID *)
Definition T_RANAP_DCH_ID : ty := TInt (Some (mkCon false 0 255)).
(* src/ranap/RANAP_DL-GTP-PDU-SequenceNumber.c:141-165 asn_DEF_RANAP_DL_GTP_PDU_SequenceNumber *)
Definition T_RANAP_DL_GTP_PDU_SequenceNumber : ty := TInt (Some (mkCon false 0 65535)).
(* src/ranap/RANAP_DL-N-PDU-SequenceNumber.c:141-165 asn_DEF_RANAP_DL_N_PDU_SequenceNumber *)
Definition T_RANAP_DL_N_PDU_SequenceNumber : ty := TInt (Some (mkCon false 0 65535)).
(* src/ranap/RANAP_DRX-CycleLengthCoefficient.c:141-165 asn_DEF_RANAP_DRX_CycleLengthCoefficient *)
Definition T_RANAP_DRX_CycleLengthCoefficient : ty := TInt (Some (mkCon false 6 9)).
(* src/ranap/RANAP_DSCH-ID.c:141-165 asn_DEF_RANAP_DSCH_ID *)
Definition T_RANAP_DSCH_ID : ty := TInt (Some (mkCon false 0 255)).
(* src/ranap/RANAP_DataPDUType.c:143-167 asn_DEF_RANAP_DataPDUType *)
Definition T_RANAP_DataPDUType : ty := TEnum true [0; 1] [].
(* src/ranap/RANAP_UnsuccessfullyTransmittedDataVolume.c:137-161 asn_DEF_RANAP_UnsuccessfullyTransmittedDataVolume *)
Definition T_RANAP_UnsuccessfullyTransmittedDataVolume : ty := TInt (Some (mkCon false 0 4294967295)).
(* src/ranap/RANAP_DataVolumeReference.c:141-165 asn_DEF_RANAP_DataVolumeReference *)
Definition T_RANAP_DataVolumeReference : ty := TInt (Some (mkCon false 0 255)).
(* src/ranap/RANAP_DataVolumeList-Value.c:58-83 asn_DEF_RANAP_DataVolumeList_Value *)
Definition T_RANAP_DataVolumeList_Value : ty := TSeq true
    [(false, T_RANAP_UnsuccessfullyTransmittedDataVolume); (true, T_RANAP_DataVolumeReference); (true, T_RANAP_ProtocolExtensionContainer)]
    [].
(* src/ranap/RANAP_DataVolumeList.c:34-59 asn_DEF_RANAP_DataVolumeList *)
Definition T_RANAP_DataVolumeList : ty := TSeqOf (Some (mkCon false 1 2)) T_RANAP_DataVolumeList_Value.
(* src/ranap/RANAP_DataVolumeReport.c:67-92 asn_DEF_dataVolumeReport_ies_2 *)
Definition T_RANAP_DataVolumeReport__dataVolumeReport_ies_2 : ty := TSeqOf (Some (mkCon false 0 65535)) T_RANAP_IE.
(* src/ranap/RANAP_DataVolumeReport.c:120-145 asn_DEF_RANAP_DataVolumeReport *)
Definition T_RANAP_DataVolumeReport : ty := TSeq true
    [(false, T_RANAP_DataVolumeReport__dataVolumeReport_ies_2)]
    [].
(* src/ranap/RANAP_DataVolumeReportList.c:67-92 asn_DEF_dataVolumeReportListe_ies_2 *)
Definition T_RANAP_DataVolumeReportList__dataVolumeReportListe_ies_2 : ty := TSeqOf (Some (mkCon false 0 65535)) T_RANAP_IE.
(* src/ranap/RANAP_DataVolumeReportList.c:120-145 asn_DEF_RANAP_DataVolumeReportList *)
Definition T_RANAP_DataVolumeReportList : ty := TSeq true
    [(false, T_RANAP_DataVolumeReportList__dataVolumeReportListe_ies_2)]
    [].
(* src/ranap/RANAP_DataVolumeReportRequest.c:67-92 asn_DEF_dataVolumeReportRequest_ies_2 *)
Definition T_RANAP_DataVolumeReportRequest__dataVolumeReportRequest_ies_2 : ty := TSeqOf (Some (mkCon false 0 65535)) T_RANAP_IE.
(* src/ranap/RANAP_DataVolumeReportRequest.c:120-145 asn_DEF_RANAP_DataVolumeReportRequest *)
Definition T_RANAP_DataVolumeReportRequest : ty := TSeq true
    [(false, T_RANAP_DataVolumeReportRequest__dataVolumeReportRequest_ies_2)]
    [].
(* src/ranap/RANAP_DataVolumeReportingIndication.c:141-165 asn_DEF_RANAP_DataVolumeReportingIndication *)
Definition T_RANAP_DataVolumeReportingIndication : ty := TEnum false [0; 1] [].
(* src/ranap/RANAP_DeliveryOfErroneousSDU.c:143-167 asn_DEF_RANAP_DeliveryOfErroneousSDU *)
Definition T_RANAP_DeliveryOfErroneousSDU : ty := TEnum false [0; 1; 2] [].
(* src/ranap/RANAP_DeliveryOrder.c:141-165 asn_DEF_RANAP_DeliveryOrder *)
Definition T_RANAP_DeliveryOrder : ty := TEnum false [0; 1] [].
(* src/ranap/RANAP_RAC.c:142-166 asn_DEF_RANAP_RAC *)
Definition T_RANAP_RAC : ty := TOcts (Some (mkCon false 1 1)).
(* src/ranap/RANAP_NewRAListofIdleModeUEs.c:34-59 asn_DEF_RANAP_NewRAListofIdleModeUEs *)
Definition T_RANAP_NewRAListofIdleModeUEs : ty := TSeqOf (Some (mkCon false 1 65536)) T_RANAP_RAC.
(* src/ranap/RANAP_RAListwithNoIdleModeUEsAnyMore.c:34-59 asn_DEF_RANAP_RAListwithNoIdleModeUEsAnyMore *)
Definition T_RANAP_RAListwithNoIdleModeUEsAnyMore : ty := TSeqOf (Some (mkCon false 1 65536)) T_RANAP_RAC.
(* src/ranap/RANAP_DeltaRAListofIdleModeUEs.c:58-83 asn_DEF_RANAP_DeltaRAListofIdleModeUEs *)
Definition T_RANAP_DeltaRAListofIdleModeUEs : ty := TSeq false
    [(true, T_RANAP_NewRAListofIdleModeUEs); (true, T_RANAP_RAListwithNoIdleModeUEsAnyMore); (true, T_RANAP_IE_Extensions)]
    [].
(* src/ranap/RANAP_DirectInformationTransfer.c:67-92 asn_DEF_directInformationTransfer_ies_2 *)
Definition T_RANAP_DirectInformationTransfer__directInformationTransfer_ies_2 : ty := TSeqOf (Some (mkCon false 0 65535)) T_RANAP_IE.
(* src/ranap/RANAP_DirectInformationTransfer.c:120-145 asn_DEF_RANAP_DirectInformationTransfer *)
Definition T_RANAP_DirectInformationTransfer : ty := TSeq true
    [(false, T_RANAP_DirectInformationTransfer__directInformationTransfer_ies_2)]
    [].
(* src/ranap/RANAP_DirectReportingIndicator.c:143-167 asn_DEF_RANAP_DirectReportingIndicator *)
Definition T_RANAP_DirectReportingIndicator : ty := TEnum true [0; 1] [].
(* src/ranap/RANAP_ProtocolIE-Container.c:34-59 asn_DEF_RANAP_ProtocolIE_Container *)
Definition T_RANAP_ProtocolIE_Container : ty := TSeqOf (Some (mkCon false 0 65535)) T_RANAP_IE.
(* src/ranap/RANAP_DirectTransfer-IE-ContainerList.c:34-59 asn_DEF_RANAP_DirectTransfer_IE_ContainerList *)
Definition T_RANAP_DirectTransfer_IE_ContainerList : ty := TSeqOf (Some (mkCon false 1 15)) T_RANAP_ProtocolIE_Container.
(* src/ranap/RANAP_DirectTransfer.c:67-92 asn_DEF_directTransfer_ies_2 *)
Definition T_RANAP_DirectTransfer__directTransfer_ies_2 : ty := TSeqOf (Some (mkCon false 0 65535)) T_RANAP_IE.
(* src/ranap/RANAP_DirectTransfer.c:120-145 asn_DEF_RANAP_DirectTransfer *)
Definition T_RANAP_DirectTransfer : ty := TSeq true
    [(false, T_RANAP_DirectTransfer__directTransfer_ies_2)]
    [].
(* src/ranap/RANAP_NAS-PDU.c:119-143 asn_DEF_RANAP_NAS_PDU *)
Definition T_RANAP_NAS_PDU : ty := TOcts None.
(* src/ranap/RANAP_SAPI.c:143-167 asn_DEF_RANAP_SAPI *)
Definition T_RANAP_SAPI : ty := TEnum true [0; 1] [].
(* src/ranap/RANAP_DirectTransferInformationItem-RANAP-RelocInf.c:68-93 asn_DEF_RANAP_DirectTransferInformationItem_RANAP_RelocInf *)
Definition T_RANAP_DirectTransferInformationItem_RANAP_RelocInf : ty := TSeq true
    [(false, T_RANAP_NAS_PDU); (false, T_RANAP_SAPI); (false, T_RANAP_CN_DomainIndicator); (true, T_RANAP_ProtocolExtensionContainer)]
    [].
(* src/ranap/RANAP_E-DCH-MAC-d-Flow-ID.c:141-165 asn_DEF_RANAP_E_DCH_MAC_d_Flow_ID *)
Definition T_RANAP_E_DCH_MAC_d_Flow_ID : ty := TInt (Some (mkCon false 0 7)).
(* src/ranap/RANAP_E-UTRAN-Service-Handover.c:141-165 asn_DEF_RANAP_E_UTRAN_Service_Handover *)
Definition T_RANAP_E_UTRAN_Service_Handover : ty := TEnum true [0] [].
(* src/ranap/RANAP_EARFCN-Extended.c:141-165 asn_DEF_RANAP_EARFCN_Extended *)
Definition T_RANAP_EARFCN_Extended : ty := TInt (Some (mkCon true 65536 262143)).
(* src/ranap/RANAP_ENB-ID.c:121-144 asn_DEF_RANAP_ENB_ID *)
Definition T_RANAP_ENB_ID : ty := TChoice true
    [(TBits (Some (mkCon false 20 20))); (TBits (Some (mkCon false 28 28)))]
    [].
(* src/ranap/RANAP_MeasBand.c:149-173 asn_DEF_RANAP_MeasBand *)
Definition T_RANAP_MeasBand : ty := TEnum false [0; 1; 2; 3; 4; 5] [].
(* src/ranap/RANAP_EUTRANFrequencies-Value.c:88-113 asn_DEF_RANAP_EUTRANFrequencies_Value *)
Definition T_RANAP_EUTRANFrequencies_Value : ty := TSeq false
    [(false, (TInt (Some (mkCon false 0 65535)))); (true, T_RANAP_MeasBand); (true, T_RANAP_IE_Extensions)]
    [].
(* src/ranap/RANAP_EUTRANFrequencies.c:34-59 asn_DEF_RANAP_EUTRANFrequencies *)
Definition T_RANAP_EUTRANFrequencies : ty := TSeqOf (Some (mkCon false 1 8)) T_RANAP_EUTRANFrequencies_Value.
(* src/ranap/RANAP_EncryptionAlgorithm.c:141-165 asn_DEF_RANAP_EncryptionAlgorithm *)
Definition T_RANAP_EncryptionAlgorithm : ty := TInt (Some (mkCon false 0 15)).
(* src/ranap/RANAP_PermittedEncryptionAlgorithms.c:34-59 asn_DEF_RANAP_PermittedEncryptionAlgorithms *)
Definition T_RANAP_PermittedEncryptionAlgorithms : ty := TSeqOf (Some (mkCon false 1 16)) T_RANAP_EncryptionAlgorithm.
(* src/ranap/RANAP_EncryptionKey.c:147-171 asn_DEF_RANAP_EncryptionKey *)
Definition T_RANAP_EncryptionKey : ty := TBits (Some (mkCon false 128 128)).
(* src/ranap/RANAP_EncryptionInformation.c:58-83 asn_DEF_RANAP_EncryptionInformation *)
Definition T_RANAP_EncryptionInformation : ty := TSeq false
    [(false, T_RANAP_PermittedEncryptionAlgorithms); (false, T_RANAP_EncryptionKey); (true, T_RANAP_IE_Extensions)]
    [].
(* src/ranap/RANAP_End-Of-CSFB.c:141-165 asn_DEF_RANAP_End_Of_CSFB *)
Definition T_RANAP_End_Of_CSFB : ty := TEnum true [0] [].
(* src/ranap/RANAP_EnhancedRelocationCompleteConfirm.c:67-92 asn_DEF_enhancedRelocationCompleteConfirm_ies_2 *)
Definition T_RANAP_EnhancedRelocationCompleteConfirm__enhancedRelocationCompleteConfirm_ies_2 : ty := TSeqOf (Some (mkCon false 0 65535)) T_RANAP_IE.
(* src/ranap/RANAP_EnhancedRelocationCompleteConfirm.c:120-145 asn_DEF_RANAP_EnhancedRelocationCompleteConfirm *)
Definition T_RANAP_EnhancedRelocationCompleteConfirm : ty := TSeq true
    [(false, T_RANAP_EnhancedRelocationCompleteConfirm__enhancedRelocationCompleteConfirm_ies_2)]
    [].
(* src/ranap/RANAP_EnhancedRelocationCompleteFailure.c:67-92 asn_DEF_enhancedRelocationCompleteFailure_ies_2 *)
Definition T_RANAP_EnhancedRelocationCompleteFailure__enhancedRelocationCompleteFailure_ies_2 : ty := TSeqOf (Some (mkCon false 0 65535)) T_RANAP_IE.
(* src/ranap/RANAP_EnhancedRelocationCompleteFailure.c:120-145 asn_DEF_RANAP_EnhancedRelocationCompleteFailure *)
Definition T_RANAP_EnhancedRelocationCompleteFailure : ty := TSeq true
    [(false, T_RANAP_EnhancedRelocationCompleteFailure__enhancedRelocationCompleteFailure_ies_2)]
    [].
(* src/ranap/RANAP_EnhancedRelocationCompleteRequest.c:67-92 asn_DEF_enhancedRelocationCompleteRequest_ies_2 *)
Definition T_RANAP_EnhancedRelocationCompleteRequest__enhancedRelocationCompleteRequest_ies_2 : ty := TSeqOf (Some (mkCon false 0 65535)) T_RANAP_IE.
(* src/ranap/RANAP_EnhancedRelocationCompleteRequest.c:120-145 asn_DEF_RANAP_EnhancedRelocationCompleteRequest *)
Definition T_RANAP_EnhancedRelocationCompleteRequest : ty := TSeq true
    [(false, T_RANAP_EnhancedRelocationCompleteRequest__enhancedRelocationCompleteRequest_ies_2)]
    [].
(* src/ranap/RANAP_EnhancedRelocationCompleteResponse.c:67-92 asn_DEF_enhancedRelocationCompleteResponse_ies_2 *)
Definition T_RANAP_EnhancedRelocationCompleteResponse__enhancedRelocationCompleteResponse_ies_2 : ty := TSeqOf (Some (mkCon false 0 65535)) T_RANAP_IE.
(* src/ranap/RANAP_EnhancedRelocationCompleteResponse.c:120-145 asn_DEF_RANAP_EnhancedRelocationCompleteResponse *)
Definition T_RANAP_EnhancedRelocationCompleteResponse : ty := TSeq true
    [(false, T_RANAP_EnhancedRelocationCompleteResponse__enhancedRelocationCompleteResponse_ies_2)]
    [].
(* src/ranap/RANAP_IMEI.c:142-166 asn_DEF_RANAP_IMEI *)
Definition T_RANAP_IMEI : ty := TOcts (Some (mkCon false 8 8)).
(* src/ranap/RANAP_IMEIList.c:34-59 asn_DEF_RANAP_IMEIList *)
Definition T_RANAP_IMEIList : ty := TSeqOf (Some (mkCon false 1 64)) T_RANAP_IMEI.
(* src/ranap/RANAP_IMEISV.c:142-166 asn_DEF_RANAP_IMEISV *)
Definition T_RANAP_IMEISV : ty := TOcts (Some (mkCon false 8 8)).
(* src/ranap/RANAP_IMEISVList.c:34-59 asn_DEF_RANAP_IMEISVList *)
Definition T_RANAP_IMEISVList : ty := TSeqOf (Some (mkCon false 1 64)) T_RANAP_IMEISV.
(* src/ranap/RANAP_IMEIGroup.c:94-119 asn_DEF_RANAP_IMEIGroup *)
Definition T_RANAP_IMEIGroup : ty := TSeq false
    [(false, T_RANAP_IMEI); (false, (TBits (Some (mkCon false 7 7)))); (true, T_RANAP_IE_Extensions)]
    [].
(* src/ranap/RANAP_IMEISVGroup.c:94-119 asn_DEF_RANAP_IMEISVGroup *)
Definition T_RANAP_IMEISVGroup : ty := TSeq false
    [(false, T_RANAP_IMEISV); (false, (TBits (Some (mkCon false 7 7)))); (true, T_RANAP_IE_Extensions)]
    [].
(* src/ranap/RANAP_EquipmentsToBeTraced.c:69-92 asn_DEF_RANAP_EquipmentsToBeTraced *)
Definition T_RANAP_EquipmentsToBeTraced : ty := TChoice true
    [T_RANAP_IMEIList; T_RANAP_IMEISVList; T_RANAP_IMEIGroup; T_RANAP_IMEISVGroup]
    [].
(* src/ranap/RANAP_ErrorIndication.c:67-92 asn_DEF_errorIndication_ies_2 *)
Definition T_RANAP_ErrorIndication__errorIndication_ies_2 : ty := TSeqOf (Some (mkCon false 0 65535)) T_RANAP_IE.
(* src/ranap/RANAP_ErrorIndication.c:120-145 asn_DEF_RANAP_ErrorIndication *)
Definition T_RANAP_ErrorIndication : ty := TSeq true
    [(false, T_RANAP_ErrorIndication__errorIndication_ies_2)]
    [].
(* src/ranap/RANAP_Event.c:151-175 asn_DEF_RANAP_Event *)
Definition T_RANAP_Event : ty := TEnum true [0; 1; 2] [3; 4; 5].
(* src/ranap/RANAP_MeasurementQuantity.c:145-169 asn_DEF_RANAP_MeasurementQuantity *)
Definition T_RANAP_MeasurementQuantity : ty := TEnum true [0; 1; 2] [].
(* src/ranap/RANAP_Event1F-Parameters.c:76-101 asn_DEF_RANAP_Event1F_Parameters *)
Definition T_RANAP_Event1F_Parameters : ty := TSeq true
    [(false, T_RANAP_MeasurementQuantity); (false, (TInt (Some (mkCon false (-120) 165))))]
    [].
(* src/ranap/RANAP_Event1I-Parameters.c:66-91 asn_DEF_RANAP_Event1I_Parameters *)
Definition T_RANAP_Event1I_Parameters : ty := TSeq true
    [(false, (TInt (Some (mkCon false (-120) (-25)))))]
    [].
(* src/ranap/RANAP_ExtendedRNC-ID.c:141-165 asn_DEF_RANAP_ExtendedRNC_ID *)
Definition T_RANAP_ExtendedRNC_ID : ty := TInt (Some (mkCon false 4096 65535)).
(* src/ranap/RANAP_ForwardSRNS-Context.c:67-92 asn_DEF_forwardSRNS_Context_ies_2 *)
Definition T_RANAP_ForwardSRNS_Context__forwardSRNS_Context_ies_2 : ty := TSeqOf (Some (mkCon false 0 65535)) T_RANAP_IE.
(* src/ranap/RANAP_ForwardSRNS-Context.c:120-145 asn_DEF_RANAP_ForwardSRNS_Context *)
Definition T_RANAP_ForwardSRNS_Context : ty := TSeq true
    [(false, T_RANAP_ForwardSRNS_Context__forwardSRNS_Context_ies_2)]
    [].
(* src/ranap/RANAP_ForwardingIndication.c:141-165 asn_DEF_RANAP_ForwardingIndication *)
Definition T_RANAP_ForwardingIndication : ty := TEnum true [0] [].
(* src/ranap/RANAP_FrameSequenceNumber.c:141-165 asn_DEF_RANAP_FrameSequenceNumber *)
Definition T_RANAP_FrameSequenceNumber : ty := TInt (Some (mkCon false 0 15)).
(* src/ranap/RANAP_FrequenceLayerConvergenceFlag.c:141-165 asn_DEF_RANAP_FrequenceLayerConvergenceFlag *)
Definition T_RANAP_FrequenceLayerConvergenceFlag : ty := TEnum true [0] [].
(* src/ranap/RANAP_GANSS-PositioningMethodAndUsage.c:142-166 asn_DEF_RANAP_GANSS_PositioningMethodAndUsage *)
Definition T_RANAP_GANSS_PositioningMethodAndUsage : ty := TOcts (Some (mkCon false 1 1)).
(* src/ranap/RANAP_GANSS-PositioningDataSet.c:34-59 asn_DEF_RANAP_GANSS_PositioningDataSet *)
Definition T_RANAP_GANSS_PositioningDataSet : ty := TSeqOf (Some (mkCon false 1 9)) T_RANAP_GANSS_PositioningMethodAndUsage.
(* src/ranap/RANAP_GERAN-BSC-Container.c:119-143 asn_DEF_RANAP_GERAN_BSC_Container *)
Definition T_RANAP_GERAN_BSC_Container : ty := TOcts None.
(* src/ranap/RANAP_LAI.c:58-83 asn_DEF_RANAP_LAI *)
Definition T_RANAP_LAI : ty := TSeq false
    [(false, T_RANAP_PLMNidentity); (false, T_RANAP_LAC); (true, T_RANAP_IE_Extensions)]
    [].
(* src/ranap/RANAP_GERAN-Cell-ID.c:68-93 asn_DEF_RANAP_GERAN_Cell_ID *)
Definition T_RANAP_GERAN_Cell_ID : ty := TSeq false
    [(false, T_RANAP_LAI); (false, T_RANAP_RAC); (false, T_RANAP_CI); (true, T_RANAP_IE_Extensions)]
    [].
(* src/ranap/RANAP_GERAN-Classmark.c:119-143 asn_DEF_RANAP_GERAN_Classmark *)
Definition T_RANAP_GERAN_Classmark : ty := TOcts None.
(* src/ranap/RANAP_RAB-ID.c:147-171 asn_DEF_RANAP_RAB_ID *)
Definition T_RANAP_RAB_ID : ty := TBits (Some (mkCon false 8 8)).
(* src/ranap/RANAP_GERAN-Iumode-RAB-Failed-RABAssgntResponse-Item.c:68-93 asn_DEF_RANAP_GERAN_Iumode_RAB_Failed_RABAssgntResponse_Item *)
Definition T_RANAP_GERAN_Iumode_RAB_Failed_RABAssgntResponse_Item : ty := TSeq true
    [(false, T_RANAP_RAB_ID); (false, T_RANAP_Cause); (true, T_RANAP_GERAN_Classmark); (true, T_RANAP_ProtocolExtensionContainer)]
    [].
(* src/ranap/RANAP_GERAN-Iumode-RAB-Failed-RABAssgntResponse-List.c:67-92 asn_DEF_geraN_Iumode_RAB_Failed_RABAssgntResponse_List_ies_2 *)
Definition T_RANAP_GERAN_Iumode_RAB_Failed_RABAssgntResponse_List__geraN_Iumode_RAB_Failed_RABAssgntResponse_List_ies_2 : ty := TSeqOf (Some (mkCon false 0 65535)) T_RANAP_IE.
(* src/ranap/RANAP_GERAN-Iumode-RAB-Failed-RABAssgntResponse-List.c:120-145 asn_DEF_RANAP_GERAN_Iumode_RAB_Failed_RABAssgntResponse_List *)
Definition T_RANAP_GERAN_Iumode_RAB_Failed_RABAssgntResponse_List : ty := TSeq true
    [(false, T_RANAP_GERAN_Iumode_RAB_Failed_RABAssgntResponse_List__geraN_Iumode_RAB_Failed_RABAssgntResponse_List_ies_2)]
    [].
(* src/ranap/RANAP_GTP-TEI.c:142-166 asn_DEF_RANAP_GTP_TEI *)
Definition T_RANAP_GTP_TEI : ty := TOcts (Some (mkCon false 4 4)).
(* src/ranap/RANAP_GlobalCN-ID.c:46-71 asn_DEF_RANAP_GlobalCN_ID *)
Definition T_RANAP_GlobalCN_ID : ty := TSeq false
    [(false, T_RANAP_PLMNidentity); (false, T_RANAP_CN_ID)]
    [].
(* src/ranap/RANAP_RNC-ID.c:141-165 asn_DEF_RANAP_RNC_ID *)
Definition T_RANAP_RNC_ID : ty := TInt (Some (mkCon false 0 4095)).
(* src/ranap/RANAP_GlobalRNC-ID.c:46-71 asn_DEF_RANAP_GlobalRNC_ID *)
Definition T_RANAP_GlobalRNC_ID : ty := TSeq false
    [(false, T_RANAP_PLMNidentity); (false, T_RANAP_RNC_ID)]
    [].
(* src/ranap/RANAP_HS-DSCH-MAC-d-Flow-ID.c:141-165 asn_DEF_RANAP_HS_DSCH_MAC_d_Flow_ID *)
Definition T_RANAP_HS_DSCH_MAC_d_Flow_ID : ty := TInt (Some (mkCon false 0 7)).
(* src/ranap/RANAP_HigherBitratesThan16MbpsFlag.c:143-167 asn_DEF_RANAP_HigherBitratesThan16MbpsFlag *)
Definition T_RANAP_HigherBitratesThan16MbpsFlag : ty := TEnum true [0; 1] [].
(* src/ranap/RANAP_HorizontalSpeedAndBearing.c:106-131 asn_DEF_RANAP_HorizontalSpeedAndBearing *)
Definition T_RANAP_HorizontalSpeedAndBearing : ty := TSeq false
    [(false, (TInt (Some (mkCon false 0 359)))); (false, (TInt (Some (mkCon false 0 2047))))]
    [].
(* src/ranap/RANAP_HorizontalVelocity.c:48-73 asn_DEF_RANAP_HorizontalVelocity *)
Definition T_RANAP_HorizontalVelocity : ty := TSeq true
    [(false, T_RANAP_HorizontalSpeedAndBearing); (true, T_RANAP_IE_Extensions)]
    [].
(* src/ranap/RANAP_HorizontalVelocityWithUncertainty.c:88-113 asn_DEF_RANAP_HorizontalVelocityWithUncertainty *)
Definition T_RANAP_HorizontalVelocityWithUncertainty : ty := TSeq true
    [(false, T_RANAP_HorizontalSpeedAndBearing); (false, (TInt (Some (mkCon false 0 255)))); (true, T_RANAP_IE_Extensions)]
    [].
(* src/ranap/RANAP_VerticalSpeedDirection.c:141-165 asn_DEF_RANAP_VerticalSpeedDirection *)
Definition T_RANAP_VerticalSpeedDirection : ty := TEnum false [0; 1] [].
(* src/ranap/RANAP_VerticalVelocity.c:76-101 asn_DEF_RANAP_VerticalVelocity *)
Definition T_RANAP_VerticalVelocity : ty := TSeq false
    [(false, (TInt (Some (mkCon false 0 255)))); (false, T_RANAP_VerticalSpeedDirection)]
    [].
(* src/ranap/RANAP_HorizontalWithVerticalVelocity.c:58-83 asn_DEF_RANAP_HorizontalWithVerticalVelocity *)
Definition T_RANAP_HorizontalWithVerticalVelocity : ty := TSeq true
    [(false, T_RANAP_HorizontalSpeedAndBearing); (false, T_RANAP_VerticalVelocity); (true, T_RANAP_IE_Extensions)]
    [].
(* src/ranap/RANAP_HorizontalWithVerticalVelocityAndUncertainty.c:138-163 asn_DEF_RANAP_HorizontalWithVerticalVelocityAndUncertainty *)
Definition T_RANAP_HorizontalWithVerticalVelocityAndUncertainty : ty := TSeq true
    [(false, T_RANAP_HorizontalSpeedAndBearing); (false, T_RANAP_VerticalVelocity); (false, (TInt (Some (mkCon false 0 255)))); (false, (TInt (Some (mkCon false 0 255)))); (true, T_RANAP_IE_Extensions)]
    [].
(* src/ranap/RANAP_IMSI.c:142-166 asn_DEF_RANAP_IMSI *)
Definition T_RANAP_IMSI : ty := TOcts (Some (mkCon false 3 8)).
(* src/ranap/RANAP_IPMulticastAddress.c:142-166 asn_DEF_RANAP_IPMulticastAddress *)
Definition T_RANAP_IPMulticastAddress : ty := TOcts (Some (mkCon false 4 16)).
(* src/ranap/RANAP_IRATmeasurementParameters.c:88-113 asn_DEF_RANAP_IRATmeasurementParameters *)
Definition T_RANAP_IRATmeasurementParameters : ty := TSeq false
    [(false, (TInt (Some (mkCon false 1 100)))); (true, T_RANAP_EUTRANFrequencies); (true, T_RANAP_IE_Extensions)]
    [].
(* src/ranap/RANAP_IRAT-Measurement-Configuration.c:128-153 asn_DEF_RANAP_IRAT_Measurement_Configuration *)
Definition T_RANAP_IRAT_Measurement_Configuration : ty := TSeq false
    [(true, (TInt (Some (mkCon false 0 97)))); (true, (TInt (Some (mkCon false 0 34)))); (false, T_RANAP_IRATmeasurementParameters); (true, T_RANAP_IE_Extensions)]
    [].
(* src/ranap/RANAP_MeasurementsToActivate.c:147-171 asn_DEF_RANAP_MeasurementsToActivate *)
Definition T_RANAP_MeasurementsToActivate : ty := TBits (Some (mkCon false 8 8)).
(* src/ranap/RANAP_ReportInterval.c:169-193 asn_DEF_RANAP_ReportInterval *)
Definition T_RANAP_ReportInterval : ty := TEnum true [0; 1; 2; 3; 4; 5; 6; 7; 8; 9; 10; 11; 12] [13; 14].
(* src/ranap/RANAP_ReportAmount.c:155-179 asn_DEF_RANAP_ReportAmount *)
Definition T_RANAP_ReportAmount : ty := TEnum true [0; 1; 2; 3; 4; 5; 6; 7] [].
(* src/ranap/RANAP_MDT-Report-Parameters.c:46-71 asn_DEF_RANAP_MDT_Report_Parameters *)
Definition T_RANAP_MDT_Report_Parameters : ty := TSeq true
    [(false, T_RANAP_ReportInterval); (false, T_RANAP_ReportAmount)]
    [].
(* src/ranap/RANAP_M1Report.c:49-72 asn_DEF_RANAP_M1Report *)
Definition T_RANAP_M1Report : ty := TChoice true
    [T_RANAP_MDT_Report_Parameters; T_RANAP_Event1F_Parameters]
    [].
(* src/ranap/RANAP_M2Report.c:49-72 asn_DEF_RANAP_M2Report *)
Definition T_RANAP_M2Report : ty := TChoice true
    [T_RANAP_MDT_Report_Parameters; T_RANAP_Event1I_Parameters]
    [].
(* src/ranap/RANAP_ImmediateMDT.c:68-93 asn_DEF_RANAP_ImmediateMDT *)
Definition T_RANAP_ImmediateMDT : ty := TSeq true
    [(false, T_RANAP_MeasurementsToActivate); (true, T_RANAP_M1Report); (true, T_RANAP_M2Report)]
    [(true, T_RANAP_IE_Extensions)].
(* src/ranap/RANAP_IncludeVelocity.c:139-163 asn_DEF_RANAP_IncludeVelocity *)
Definition T_RANAP_IncludeVelocity : ty := TEnum false [0] [].
(* src/ranap/RANAP_InformationExchangeID.c:141-165 asn_DEF_RANAP_InformationExchangeID *)
Definition T_RANAP_InformationExchangeID : ty := TInt (Some (mkCon false 0 1048575)).
(* src/ranap/RANAP_InformationExchangeType.c:143-167 asn_DEF_RANAP_InformationExchangeType *)
Definition T_RANAP_InformationExchangeType : ty := TEnum true [0; 1] [].
(* src/ranap/RANAP_MBMSIPMulticastAddressandAPNRequest.c:34-59 asn_DEF_RANAP_MBMSIPMulticastAddressandAPNRequest *)
Definition T_RANAP_MBMSIPMulticastAddressandAPNRequest : ty := TSeqOf (Some (mkCon false 1 512)) T_RANAP_TMGI.
(* src/ranap/RANAP_PermanentNAS-UE-ID.c:39-62 asn_DEF_RANAP_PermanentNAS_UE_ID *)
Definition T_RANAP_PermanentNAS_UE_ID : ty := TChoice true
    [T_RANAP_IMSI]
    [].
(* src/ranap/RANAP_InformationRequestType.c:49-72 asn_DEF_RANAP_InformationRequestType *)
Definition T_RANAP_InformationRequestType : ty := TChoice true
    [T_RANAP_MBMSIPMulticastAddressandAPNRequest; T_RANAP_PermanentNAS_UE_ID]
    [].
(* src/ranap/RANAP_MBMSIPMulticastAddressandAPNlist.c:68-93 asn_DEF_RANAP_MBMSIPMulticastAddressandAPNlist *)
Definition T_RANAP_MBMSIPMulticastAddressandAPNlist : ty := TSeq true
    [(false, T_RANAP_TMGI); (false, T_RANAP_IPMulticastAddress); (false, T_RANAP_APN); (true, T_RANAP_IE_Extensions)]
    [].
(* src/ranap/RANAP_RequestedMBMSIPMulticastAddressandAPNRequest.c:34-59 asn_DEF_RANAP_RequestedMBMSIPMulticastAddressandAPNRequest *)
Definition T_RANAP_RequestedMBMSIPMulticastAddressandAPNRequest : ty := TSeqOf (Some (mkCon false 1 512)) T_RANAP_MBMSIPMulticastAddressandAPNlist.
(* src/ranap/RANAP_RequestedMulticastServiceList.c:34-59 asn_DEF_RANAP_RequestedMulticastServiceList *)
Definition T_RANAP_RequestedMulticastServiceList : ty := TSeqOf (Some (mkCon false 1 128)) T_RANAP_TMGI.
(* src/ranap/RANAP_InformationRequested.c:49-72 asn_DEF_RANAP_InformationRequested *)
Definition T_RANAP_InformationRequested : ty := TChoice true
    [T_RANAP_RequestedMBMSIPMulticastAddressandAPNRequest; T_RANAP_RequestedMulticastServiceList]
    [].
(* src/ranap/RANAP_InformationTransferConfirmation.c:67-92 asn_DEF_informationTransferConfirmation_ies_2 *)
Definition T_RANAP_InformationTransferConfirmation__informationTransferConfirmation_ies_2 : ty := TSeqOf (Some (mkCon false 0 65535)) T_RANAP_IE.
(* src/ranap/RANAP_InformationTransferConfirmation.c:120-145 asn_DEF_RANAP_InformationTransferConfirmation *)
Definition T_RANAP_InformationTransferConfirmation : ty := TSeq true
    [(false, T_RANAP_InformationTransferConfirmation__informationTransferConfirmation_ies_2)]
    [].
(* src/ranap/RANAP_InformationTransferFailure.c:67-92 asn_DEF_informationTransferFailure_ies_2 *)
Definition T_RANAP_InformationTransferFailure__informationTransferFailure_ies_2 : ty := TSeqOf (Some (mkCon false 0 65535)) T_RANAP_IE.
(* src/ranap/RANAP_InformationTransferFailure.c:120-145 asn_DEF_RANAP_InformationTransferFailure *)
Definition T_RANAP_InformationTransferFailure : ty := TSeq true
    [(false, T_RANAP_InformationTransferFailure__informationTransferFailure_ies_2)]
    [].
(* src/ranap/RANAP_InformationTransferID.c:141-165 asn_DEF_RANAP_InformationTransferID *)
Definition T_RANAP_InformationTransferID : ty := TInt (Some (mkCon false 0 1048575)).
(* src/ranap/RANAP_InformationTransferIndication.c:67-92 asn_DEF_informationTransferIndication_ies_2 *)
Definition T_RANAP_InformationTransferIndication__informationTransferIndication_ies_2 : ty := TSeqOf (Some (mkCon false 0 65535)) T_RANAP_IE.
(* src/ranap/RANAP_InformationTransferIndication.c:120-145 asn_DEF_RANAP_InformationTransferIndication *)
Definition T_RANAP_InformationTransferIndication : ty := TSeq true
    [(false, T_RANAP_InformationTransferIndication__informationTransferIndication_ies_2)]
    [].
(* src/ranap/RANAP_TraceReference.c:142-166 asn_DEF_RANAP_TraceReference *)
Definition T_RANAP_TraceReference : ty := TOcts (Some (mkCon false 2 3)).
(* src/ranap/RANAP_RNCTraceInformation.c:143-167 asn_DEF_traceActivationIndicato_3 *)
Definition T_RANAP_RNCTraceInformation__traceActivationIndicato_3 : ty := TEnum false [0; 1] [].
(* src/ranap/RANAP_RNCTraceInformation.c:227-252 asn_DEF_RANAP_RNCTraceInformation *)
Definition T_RANAP_RNCTraceInformation : ty := TSeq false
    [(false, T_RANAP_TraceReference); (false, T_RANAP_RNCTraceInformation__traceActivationIndicato_3); (true, T_RANAP_EquipmentsToBeTraced); (true, T_RANAP_IE_Extensions)]
    [].
(* src/ranap/RANAP_InformationTransferType.c:39-62 asn_DEF_RANAP_InformationTransferType *)
Definition T_RANAP_InformationTransferType : ty := TChoice true
    [T_RANAP_RNCTraceInformation]
    [].
(* src/ranap/RANAP_InitialUE-Message.c:67-92 asn_DEF_initialUE_Message_ies_2 *)
Definition T_RANAP_InitialUE_Message__initialUE_Message_ies_2 : ty := TSeqOf (Some (mkCon false 0 65535)) T_RANAP_IE.
(* src/ranap/RANAP_InitialUE-Message.c:120-145 asn_DEF_RANAP_InitialUE_Message *)
Definition T_RANAP_InitialUE_Message : ty := TSeq true
    [(false, T_RANAP_InitialUE_Message__initialUE_Message_ies_2)]
    [].
(* src/ranap/RANAP_InitiatingMessage.c:56-81 asn_DEF_RANAP_InitiatingMessage *)
Definition T_RANAP_InitiatingMessage : ty := TSeq false
    [(false, T_RANAP_ProcedureCode); (false, T_RANAP_Criticality); (false, (TOcts None))]
    [].
(* src/ranap/RANAP_IntegrityProtectionAlgorithm.c:141-165 asn_DEF_RANAP_IntegrityProtectionAlgorithm *)
Definition T_RANAP_IntegrityProtectionAlgorithm : ty := TInt (Some (mkCon false 0 15)).
(* src/ranap/RANAP_PermittedIntegrityProtectionAlgorithms.c:34-59 asn_DEF_RANAP_PermittedIntegrityProtectionAlgorithms *)
Definition T_RANAP_PermittedIntegrityProtectionAlgorithms : ty := TSeqOf (Some (mkCon false 1 16)) T_RANAP_IntegrityProtectionAlgorithm.
(* src/ranap/RANAP_IntegrityProtectionKey.c:147-171 asn_DEF_RANAP_IntegrityProtectionKey *)
Definition T_RANAP_IntegrityProtectionKey : ty := TBits (Some (mkCon false 128 128)).
(* src/ranap/RANAP_IntegrityProtectionInformation.c:58-83 asn_DEF_RANAP_IntegrityProtectionInformation *)
Definition T_RANAP_IntegrityProtectionInformation : ty := TSeq false
    [(false, T_RANAP_PermittedIntegrityProtectionAlgorithms); (false, T_RANAP_IntegrityProtectionKey); (true, T_RANAP_IE_Extensions)]
    [].
(* src/ranap/RANAP_InterSystemInformation-TransparentContainer.c:58-83 asn_DEF_RANAP_InterSystemInformation_TransparentContainer *)
Definition T_RANAP_InterSystemInformation_TransparentContainer : ty := TSeq true
    [(true, T_RANAP_CellLoadInformation); (true, T_RANAP_CellLoadInformation); (true, T_RANAP_IE_Extensions)]
    [].
(* src/ranap/RANAP_RIMInformation.c:119-143 asn_DEF_RANAP_RIMInformation *)
Definition T_RANAP_RIMInformation : ty := TOcts None.
(* src/ranap/RANAP_TargetRNC-ID.c:68-93 asn_DEF_RANAP_TargetRNC_ID *)
Definition T_RANAP_TargetRNC_ID : ty := TSeq false
    [(false, T_RANAP_LAI); (true, T_RANAP_RAC); (false, T_RANAP_RNC_ID); (true, T_RANAP_IE_Extensions)]
    [].
(* src/ranap/RANAP_TAC.c:142-166 asn_DEF_RANAP_TAC *)
Definition T_RANAP_TAC : ty := TOcts (Some (mkCon false 2 2)).
(* src/ranap/RANAP_TAI.c:58-83 asn_DEF_RANAP_TAI *)
Definition T_RANAP_TAI : ty := TSeq false
    [(false, T_RANAP_PLMNidentity); (false, T_RANAP_TAC); (true, T_RANAP_IE_Extensions)]
    [].
(* src/ranap/RANAP_TargetENB-ID.c:68-93 asn_DEF_RANAP_TargetENB_ID *)
Definition T_RANAP_TargetENB_ID : ty := TSeq true
    [(false, T_RANAP_PLMNidentity); (false, T_RANAP_ENB_ID); (true, T_RANAP_IE_Extensions); (false, T_RANAP_TAI)]
    [].
(* src/ranap/RANAP_RIMRoutingAddress.c:59-82 asn_DEF_RANAP_RIMRoutingAddress *)
Definition T_RANAP_RIMRoutingAddress : ty := TChoice true
    [T_RANAP_TargetRNC_ID; T_RANAP_GERAN_Cell_ID]
    [T_RANAP_TargetENB_ID].
(* src/ranap/RANAP_RIM-Transfer.c:58-83 asn_DEF_RANAP_RIM_Transfer *)
Definition T_RANAP_RIM_Transfer : ty := TSeq false
    [(false, T_RANAP_RIMInformation); (true, T_RANAP_RIMRoutingAddress); (true, T_RANAP_IE_Extensions)]
    [].
(* src/ranap/RANAP_InterSystemInformationTransferType.c:39-62 asn_DEF_RANAP_InterSystemInformationTransferType *)
Definition T_RANAP_InterSystemInformationTransferType : ty := TChoice true
    [T_RANAP_RIM_Transfer]
    [].
(* src/ranap/RANAP_InterfacesToTraceItem.c:151-175 asn_DEF_interface_2 *)
Definition T_RANAP_InterfacesToTraceItem__interface_2 : ty := TEnum true [0; 1; 2; 3; 4] [].
(* src/ranap/RANAP_InterfacesToTraceItem.c:215-240 asn_DEF_RANAP_InterfacesToTraceItem *)
Definition T_RANAP_InterfacesToTraceItem : ty := TSeq true
    [(false, T_RANAP_InterfacesToTraceItem__interface_2); (true, T_RANAP_IE_Extensions)]
    [].
(* src/ranap/RANAP_Iu-ReleaseCommand.c:67-92 asn_DEF_iu_ReleaseCommand_ies_2 *)
Definition T_RANAP_Iu_ReleaseCommand__iu_ReleaseCommand_ies_2 : ty := TSeqOf (Some (mkCon false 0 65535)) T_RANAP_IE.
(* src/ranap/RANAP_Iu-ReleaseCommand.c:120-145 asn_DEF_RANAP_Iu_ReleaseCommand *)
Definition T_RANAP_Iu_ReleaseCommand : ty := TSeq true
    [(false, T_RANAP_Iu_ReleaseCommand__iu_ReleaseCommand_ies_2)]
    [].
(* src/ranap/RANAP_Iu-ReleaseComplete.c:67-92 asn_DEF_iu_ReleaseComplete_ies_2 *)
Definition T_RANAP_Iu_ReleaseComplete__iu_ReleaseComplete_ies_2 : ty := TSeqOf (Some (mkCon false 0 65535)) T_RANAP_IE.
(* src/ranap/RANAP_Iu-ReleaseComplete.c:120-145 asn_DEF_RANAP_Iu_ReleaseComplete *)
Definition T_RANAP_Iu_ReleaseComplete : ty := TSeq true
    [(false, T_RANAP_Iu_ReleaseComplete__iu_ReleaseComplete_ies_2)]
    [].
(* src/ranap/RANAP_Iu-ReleaseRequest.c:67-92 asn_DEF_iu_ReleaseRequest_ies_2 *)
Definition T_RANAP_Iu_ReleaseRequest__iu_ReleaseRequest_ies_2 : ty := TSeqOf (Some (mkCon false 0 65535)) T_RANAP_IE.
(* src/ranap/RANAP_Iu-ReleaseRequest.c:120-145 asn_DEF_RANAP_Iu_ReleaseRequest *)
Definition T_RANAP_Iu_ReleaseRequest : ty := TSeq true
    [(false, T_RANAP_Iu_ReleaseRequest__iu_ReleaseRequest_ies_2)]
    [].
(* src/ranap/RANAP_IuSigConId-IE-ContainerList.c:34-59 asn_DEF_RANAP_IuSigConId_IE_ContainerList *)
Definition T_RANAP_IuSigConId_IE_ContainerList : ty := TSeqOf (Some (mkCon false 1 250)) T_RANAP_ProtocolIE_Container.
(* src/ranap/RANAP_IuSignallingConnectionIdentifier.c:147-171 asn_DEF_RANAP_IuSignallingConnectionIdentifier *)
Definition T_RANAP_IuSignallingConnectionIdentifier : ty := TBits (Some (mkCon false 24 24)).
(* src/ranap/RANAP_IuTransportAssociation.c:49-72 asn_DEF_RANAP_IuTransportAssociation *)
Definition T_RANAP_IuTransportAssociation : ty := TChoice true
    [T_RANAP_GTP_TEI; T_RANAP_BindingID]
    [].
(* src/ranap/RANAP_KeyStatus.c:143-167 asn_DEF_RANAP_KeyStatus *)
Definition T_RANAP_KeyStatus : ty := TEnum true [0; 1] [].
(* src/ranap/RANAP_L3-Information.c:119-143 asn_DEF_RANAP_L3_Information *)
Definition T_RANAP_L3_Information : ty := TOcts None.
(* src/ranap/RANAP_ListOF-SNAs.c:34-59 asn_DEF_RANAP_ListOF_SNAs *)
Definition T_RANAP_ListOF_SNAs : ty := TSeqOf (Some (mkCon false 1 65536)) T_RANAP_SNAC.
(* src/ranap/RANAP_LA-LIST-Value.c:58-83 asn_DEF_RANAP_LA_LIST_Value *)
Definition T_RANAP_LA_LIST_Value : ty := TSeq true
    [(false, T_RANAP_LAC); (false, T_RANAP_ListOF_SNAs); (true, T_RANAP_IE_Extensions)]
    [].
(* src/ranap/RANAP_LA-LIST.c:34-59 asn_DEF_RANAP_LA_LIST *)
Definition T_RANAP_LA_LIST : ty := TSeqOf (Some (mkCon false 1 65536)) T_RANAP_LA_LIST_Value.
(* src/ranap/RANAP_LAI-List.c:34-59 asn_DEF_RANAP_LAI_List *)
Definition T_RANAP_LAI_List : ty := TSeqOf (Some (mkCon false 1 8)) T_RANAP_LAI.
(* src/ranap/RANAP_LABased.c:48-73 asn_DEF_RANAP_LABased *)
Definition T_RANAP_LABased : ty := TSeq true
    [(false, T_RANAP_LAI_List); (true, T_RANAP_IE_Extensions)]
    [].
(* src/ranap/RANAP_LAListofIdleModeUEs.c:34-59 asn_DEF_RANAP_LAListofIdleModeUEs *)
Definition T_RANAP_LAListofIdleModeUEs : ty := TSeqOf (Some (mkCon false 1 65536)) T_RANAP_LAI.
(* src/ranap/RANAP_LHN-ID.c:142-166 asn_DEF_RANAP_LHN_ID *)
Definition T_RANAP_LHN_ID : ty := TOcts (Some (mkCon false 32 256)).
(* src/ranap/RANAP_LastKnownServiceArea.c:88-113 asn_DEF_RANAP_LastKnownServiceArea *)
Definition T_RANAP_LastKnownServiceArea : ty := TSeq true
    [(false, T_RANAP_SAI); (false, (TInt (Some (mkCon false 0 32767)))); (true, T_RANAP_IE_Extensions)]
    [].
(* src/ranap/RANAP_UTRAN-CellID.c:58-83 asn_DEF_RANAP_UTRAN_CellID *)
Definition T_RANAP_UTRAN_CellID : ty := TSeq false
    [(false, T_RANAP_PLMNidentity); (false, T_RANAP_TargetCellId); (true, T_RANAP_IE_Extensions)]
    [].
(* src/ranap/RANAP_Time-UE-StayedInCell.c:141-165 asn_DEF_RANAP_Time_UE_StayedInCell *)
Definition T_RANAP_Time_UE_StayedInCell : ty := TInt (Some (mkCon false 0 4095)).
(* src/ranap/RANAP_LastVisitedUTRANCell-Item.c:68-93 asn_DEF_RANAP_LastVisitedUTRANCell_Item *)
Definition T_RANAP_LastVisitedUTRANCell_Item : ty := TSeq true
    [(false, T_RANAP_UTRAN_CellID); (false, T_RANAP_CellType); (false, T_RANAP_Time_UE_StayedInCell); (true, T_RANAP_IE_Extensions)]
    [].
(* src/ranap/RANAP_LeftMBMSBearerService-IEs-Value.c:48-73 asn_DEF_RANAP_LeftMBMSBearerService_IEs_Value *)
Definition T_RANAP_LeftMBMSBearerService_IEs_Value : ty := TSeq true
    [(false, T_RANAP_TMGI); (true, T_RANAP_ProtocolExtensionContainer)]
    [].
(* src/ranap/RANAP_LeftMBMSBearerService-IEs.c:34-59 asn_DEF_RANAP_LeftMBMSBearerService_IEs *)
Definition T_RANAP_LeftMBMSBearerService_IEs : ty := TSeqOf (Some (mkCon false 1 128)) T_RANAP_LeftMBMSBearerService_IEs_Value.
(* src/ranap/RANAP_Links-to-log.c:145-169 asn_DEF_RANAP_Links_to_log *)
Definition T_RANAP_Links_to_log : ty := TEnum true [0; 1; 2] [].
(* src/ranap/RANAP_ListOfInterfacesToTrace.c:34-59 asn_DEF_RANAP_ListOfInterfacesToTrace *)
Definition T_RANAP_ListOfInterfacesToTrace : ty := TSeqOf (Some (mkCon false 1 16)) T_RANAP_InterfacesToTraceItem.
(* src/ranap/RANAP_LocationRelatedDataFailure.c:67-92 asn_DEF_locationRelatedDataFailure_ies_2 *)
Definition T_RANAP_LocationRelatedDataFailure__locationRelatedDataFailure_ies_2 : ty := TSeqOf (Some (mkCon false 0 65535)) T_RANAP_IE.
(* src/ranap/RANAP_LocationRelatedDataFailure.c:120-145 asn_DEF_RANAP_LocationRelatedDataFailure *)
Definition T_RANAP_LocationRelatedDataFailure : ty := TSeq true
    [(false, T_RANAP_LocationRelatedDataFailure__locationRelatedDataFailure_ies_2)]
    [].
(* src/ranap/RANAP_LocationRelatedDataRequest.c:67-92 asn_DEF_locationRelatedDataRequest_ies_2 *)
Definition T_RANAP_LocationRelatedDataRequest__locationRelatedDataRequest_ies_2 : ty := TSeqOf (Some (mkCon false 0 65535)) T_RANAP_IE.
(* src/ranap/RANAP_LocationRelatedDataRequest.c:120-145 asn_DEF_RANAP_LocationRelatedDataRequest *)
Definition T_RANAP_LocationRelatedDataRequest : ty := TSeq true
    [(false, T_RANAP_LocationRelatedDataRequest__locationRelatedDataRequest_ies_2)]
    [].
(* src/ranap/RANAP_RequestedLocationRelatedDataType.c:155-179 asn_DEF_RANAP_RequestedLocationRelatedDataType *)
Definition T_RANAP_RequestedLocationRelatedDataType : ty := TEnum true [0; 1; 2; 3] [4; 5; 6; 7].
(* src/ranap/RANAP_RequestedGPSAssistanceData.c:142-166 asn_DEF_RANAP_RequestedGPSAssistanceData *)
Definition T_RANAP_RequestedGPSAssistanceData : ty := TOcts (Some (mkCon false 1 38)).
(* src/ranap/RANAP_LocationRelatedDataRequestType.c:48-73 asn_DEF_RANAP_LocationRelatedDataRequestType *)
Definition T_RANAP_LocationRelatedDataRequestType : ty := TSeq true
    [(false, T_RANAP_RequestedLocationRelatedDataType); (true, T_RANAP_RequestedGPSAssistanceData)]
    [].
(* src/ranap/RANAP_LocationRelatedDataRequestTypeSpecificToGERANIuMode.c:145-169 asn_DEF_RANAP_LocationRelatedDataRequestTypeSpecificToGERANIuMode *)
Definition T_RANAP_LocationRelatedDataRequestTypeSpecificToGERANIuMode : ty := TEnum true [0; 1; 2] [].
(* src/ranap/RANAP_LocationRelatedDataResponse.c:67-92 asn_DEF_locationRelatedDataResponse_ies_2 *)
Definition T_RANAP_LocationRelatedDataResponse__locationRelatedDataResponse_ies_2 : ty := TSeqOf (Some (mkCon false 0 65535)) T_RANAP_IE.
(* src/ranap/RANAP_LocationRelatedDataResponse.c:120-145 asn_DEF_RANAP_LocationRelatedDataResponse *)
Definition T_RANAP_LocationRelatedDataResponse : ty := TSeq true
    [(false, T_RANAP_LocationRelatedDataResponse__locationRelatedDataResponse_ies_2)]
    [].
(* src/ranap/RANAP_LocationReport.c:67-92 asn_DEF_locationReport_ies_2 *)
Definition T_RANAP_LocationReport__locationReport_ies_2 : ty := TSeqOf (Some (mkCon false 0 65535)) T_RANAP_IE.
(* src/ranap/RANAP_LocationReport.c:120-145 asn_DEF_RANAP_LocationReport *)
Definition T_RANAP_LocationReport : ty := TSeq true
    [(false, T_RANAP_LocationReport__locationReport_ies_2)]
    [].
(* src/ranap/RANAP_LocationReportingControl.c:67-92 asn_DEF_locationReportingControl_ies_2 *)
Definition T_RANAP_LocationReportingControl__locationReportingControl_ies_2 : ty := TSeqOf (Some (mkCon false 0 65535)) T_RANAP_IE.
(* src/ranap/RANAP_LocationReportingControl.c:120-145 asn_DEF_RANAP_LocationReportingControl *)
Definition T_RANAP_LocationReportingControl : ty := TSeq true
    [(false, T_RANAP_LocationReportingControl__locationReportingControl_ies_2)]
    [].
(* src/ranap/RANAP_ReportChangeOfSAI.c:141-165 asn_DEF_RANAP_ReportChangeOfSAI *)
Definition T_RANAP_ReportChangeOfSAI : ty := TEnum true [0] [].
(* src/ranap/RANAP_PeriodicReportingIndicator.c:143-167 asn_DEF_RANAP_PeriodicReportingIndicator *)
Definition T_RANAP_PeriodicReportingIndicator : ty := TEnum true [0; 1] [].
(* src/ranap/RANAP_VerticalAccuracyCode.c:141-165 asn_DEF_RANAP_VerticalAccuracyCode *)
Definition T_RANAP_VerticalAccuracyCode : ty := TInt (Some (mkCon false 0 127)).
(* src/ranap/RANAP_PositioningPriority.c:143-167 asn_DEF_RANAP_PositioningPriority *)
Definition T_RANAP_PositioningPriority : ty := TEnum true [0; 1] [].
(* src/ranap/RANAP_ResponseTime.c:143-167 asn_DEF_RANAP_ResponseTime *)
Definition T_RANAP_ResponseTime : ty := TEnum true [0; 1] [].
(* src/ranap/RANAP_PeriodicLocationInfo.c:118-143 asn_DEF_RANAP_PeriodicLocationInfo *)
Definition T_RANAP_PeriodicLocationInfo : ty := TSeq true
    [(false, (TInt (Some (mkCon true 1 8639999)))); (false, (TInt (Some (mkCon true 1 8639999)))); (true, T_RANAP_IE_Extensions)]
    [].
(* src/ranap/RANAP_LocationReportingTransferInformation.c:148-173 asn_DEF_RANAP_LocationReportingTransferInformation *)
Definition T_RANAP_LocationReportingTransferInformation : ty := TSeq true
    [(true, T_RANAP_ReportChangeOfSAI); (true, T_RANAP_PeriodicReportingIndicator); (true, T_RANAP_DirectReportingIndicator); (true, T_RANAP_VerticalAccuracyCode); (true, T_RANAP_PositioningPriority); (true, T_RANAP_PositioningPriority); (true, T_RANAP_ClientType); (true, T_RANAP_ClientType); (true, T_RANAP_ResponseTime); (true, T_RANAP_IncludeVelocity); (true, T_RANAP_PeriodicLocationInfo); (true, T_RANAP_IE_Extensions)]
    [].
(* src/ranap/RANAP_LoggingInterval.c:155-179 asn_DEF_RANAP_LoggingInterval *)
Definition T_RANAP_LoggingInterval : ty := TEnum true [0; 1; 2; 3; 4; 5; 6; 7] [].
(* src/ranap/RANAP_LoggingDuration.c:151-175 asn_DEF_RANAP_LoggingDuration *)
Definition T_RANAP_LoggingDuration : ty := TEnum true [0; 1; 2; 3; 4; 5] [].
(* src/ranap/RANAP_LoggedMDT.c:58-83 asn_DEF_RANAP_LoggedMDT *)
Definition T_RANAP_LoggedMDT : ty := TSeq true
    [(false, T_RANAP_LoggingInterval); (false, T_RANAP_LoggingDuration); (true, T_RANAP_IE_Extensions)]
    [].
(* src/ranap/RANAP_M4-Period.c:155-179 asn_DEF_RANAP_M4_Period *)
Definition T_RANAP_M4_Period : ty := TEnum true [0; 1; 2; 3; 4; 5; 6; 7] [].
(* src/ranap/RANAP_M4-Threshold.c:141-165 asn_DEF_RANAP_M4_Threshold *)
Definition T_RANAP_M4_Threshold : ty := TInt (Some (mkCon false 0 31)).
(* src/ranap/RANAP_M4-Collection-Parameters.c:58-83 asn_DEF_RANAP_M4_Collection_Parameters *)
Definition T_RANAP_M4_Collection_Parameters : ty := TSeq true
    [(false, T_RANAP_M4_Period); (true, T_RANAP_M4_Threshold); (true, T_RANAP_IE_Extensions)]
    [].
(* src/ranap/RANAP_M4Report.c:49-72 asn_DEF_RANAP_M4Report *)
Definition T_RANAP_M4Report : ty := TChoice true
    [TNull; T_RANAP_M4_Collection_Parameters]
    [].
(* src/ranap/RANAP_M5-Period.c:155-179 asn_DEF_RANAP_M5_Period *)
Definition T_RANAP_M5_Period : ty := TEnum true [0; 1; 2; 3; 4; 5; 6; 7] [].
(* src/ranap/RANAP_M5Report.c:49-72 asn_DEF_RANAP_M5Report *)
Definition T_RANAP_M5Report : ty := TChoice true
    [TNull; T_RANAP_M5_Period]
    [].
(* src/ranap/RANAP_M6-Period.c:165-189 asn_DEF_RANAP_M6_Period *)
Definition T_RANAP_M6_Period : ty := TEnum true [0; 1; 2; 3; 4; 5; 6; 7; 8; 9; 10; 11; 12] [].
(* src/ranap/RANAP_M6Report.c:58-83 asn_DEF_RANAP_M6Report *)
Definition T_RANAP_M6Report : ty := TSeq true
    [(false, T_RANAP_M6_Period); (false, T_RANAP_Links_to_log); (true, T_RANAP_IE_Extensions)]
    [].
(* src/ranap/RANAP_M7-Period.c:165-189 asn_DEF_RANAP_M7_Period *)
Definition T_RANAP_M7_Period : ty := TEnum true [0; 1; 2; 3; 4; 5; 6; 7; 8; 9; 10; 11; 12] [].
(* src/ranap/RANAP_M7Report.c:58-83 asn_DEF_RANAP_M7Report *)
Definition T_RANAP_M7Report : ty := TSeq true
    [(false, T_RANAP_M7_Period); (false, T_RANAP_Links_to_log); (true, T_RANAP_IE_Extensions)]
    [].
(* src/ranap/RANAP_MBMSBearerServiceType.c:143-167 asn_DEF_RANAP_MBMSBearerServiceType *)
Definition T_RANAP_MBMSBearerServiceType : ty := TEnum true [0; 1] [].
(* src/ranap/RANAP_MBMSCNDe-Registration.c:143-167 asn_DEF_RANAP_MBMSCNDe_Registration *)
Definition T_RANAP_MBMSCNDe_Registration : ty := TEnum true [0; 1] [].
(* src/ranap/RANAP_MBMSCNDe-RegistrationRequest.c:67-92 asn_DEF_mbmscnDe_RegistrationRequest_ies_2 *)
Definition T_RANAP_MBMSCNDe_RegistrationRequest__mbmscnDe_RegistrationRequest_ies_2 : ty := TSeqOf (Some (mkCon false 0 65535)) T_RANAP_IE.
(* src/ranap/RANAP_MBMSCNDe-RegistrationRequest.c:120-145 asn_DEF_RANAP_MBMSCNDe_RegistrationRequest *)
Definition T_RANAP_MBMSCNDe_RegistrationRequest : ty := TSeq true
    [(false, T_RANAP_MBMSCNDe_RegistrationRequest__mbmscnDe_RegistrationRequest_ies_2)]
    [].
(* src/ranap/RANAP_MBMSCNDe-RegistrationResponse.c:67-92 asn_DEF_mbmscnDe_RegistrationResponse_ies_2 *)
Definition T_RANAP_MBMSCNDe_RegistrationResponse__mbmscnDe_RegistrationResponse_ies_2 : ty := TSeqOf (Some (mkCon false 0 65535)) T_RANAP_IE.
(* src/ranap/RANAP_MBMSCNDe-RegistrationResponse.c:120-145 asn_DEF_RANAP_MBMSCNDe_RegistrationResponse *)
Definition T_RANAP_MBMSCNDe_RegistrationResponse : ty := TSeq true
    [(false, T_RANAP_MBMSCNDe_RegistrationResponse__mbmscnDe_RegistrationResponse_ies_2)]
    [].
(* src/ranap/RANAP_MBMSCountingInformation.c:143-167 asn_DEF_RANAP_MBMSCountingInformation *)
Definition T_RANAP_MBMSCountingInformation : ty := TEnum true [0; 1] [].
(* src/ranap/RANAP_MBMSHCIndicator.c:143-167 asn_DEF_RANAP_MBMSHCIndicator *)
Definition T_RANAP_MBMSHCIndicator : ty := TEnum true [0; 1] [].
(* src/ranap/RANAP_MBMSLinkingInformation.c:141-165 asn_DEF_RANAP_MBMSLinkingInformation *)
Definition T_RANAP_MBMSLinkingInformation : ty := TEnum true [0] [].
(* src/ranap/RANAP_MBMSRABEstablishmentIndication.c:67-92 asn_DEF_mbmsrabEstablishmentIndication_ies_2 *)
Definition T_RANAP_MBMSRABEstablishmentIndication__mbmsrabEstablishmentIndication_ies_2 : ty := TSeqOf (Some (mkCon false 0 65535)) T_RANAP_IE.
(* src/ranap/RANAP_MBMSRABEstablishmentIndication.c:120-145 asn_DEF_RANAP_MBMSRABEstablishmentIndication *)
Definition T_RANAP_MBMSRABEstablishmentIndication : ty := TSeq true
    [(false, T_RANAP_MBMSRABEstablishmentIndication__mbmsrabEstablishmentIndication_ies_2)]
    [].
(* src/ranap/RANAP_MBMSRABRelease.c:67-92 asn_DEF_mbmsrabRelease_ies_2 *)
Definition T_RANAP_MBMSRABRelease__mbmsrabRelease_ies_2 : ty := TSeqOf (Some (mkCon false 0 65535)) T_RANAP_IE.
(* src/ranap/RANAP_MBMSRABRelease.c:120-145 asn_DEF_RANAP_MBMSRABRelease *)
Definition T_RANAP_MBMSRABRelease : ty := TSeq true
    [(false, T_RANAP_MBMSRABRelease__mbmsrabRelease_ies_2)]
    [].
(* src/ranap/RANAP_MBMSRABReleaseFailure.c:67-92 asn_DEF_mbmsrabReleaseFailure_ies_2 *)
Definition T_RANAP_MBMSRABReleaseFailure__mbmsrabReleaseFailure_ies_2 : ty := TSeqOf (Some (mkCon false 0 65535)) T_RANAP_IE.
(* src/ranap/RANAP_MBMSRABReleaseFailure.c:120-145 asn_DEF_RANAP_MBMSRABReleaseFailure *)
Definition T_RANAP_MBMSRABReleaseFailure : ty := TSeq true
    [(false, T_RANAP_MBMSRABReleaseFailure__mbmsrabReleaseFailure_ies_2)]
    [].
(* src/ranap/RANAP_MBMSRABReleaseRequest.c:67-92 asn_DEF_mbmsrabReleaseRequest_ies_2 *)
Definition T_RANAP_MBMSRABReleaseRequest__mbmsrabReleaseRequest_ies_2 : ty := TSeqOf (Some (mkCon false 0 65535)) T_RANAP_IE.
(* src/ranap/RANAP_MBMSRABReleaseRequest.c:120-145 asn_DEF_RANAP_MBMSRABReleaseRequest *)
Definition T_RANAP_MBMSRABReleaseRequest : ty := TSeq true
    [(false, T_RANAP_MBMSRABReleaseRequest__mbmsrabReleaseRequest_ies_2)]
    [].
(* src/ranap/RANAP_MBMSRegistrationFailure.c:67-92 asn_DEF_mbmsRegistrationFailure_ies_2 *)
Definition T_RANAP_MBMSRegistrationFailure__mbmsRegistrationFailure_ies_2 : ty := TSeqOf (Some (mkCon false 0 65535)) T_RANAP_IE.
(* src/ranap/RANAP_MBMSRegistrationFailure.c:120-145 asn_DEF_RANAP_MBMSRegistrationFailure *)
Definition T_RANAP_MBMSRegistrationFailure : ty := TSeq true
    [(false, T_RANAP_MBMSRegistrationFailure__mbmsRegistrationFailure_ies_2)]
    [].
(* src/ranap/RANAP_MBMSRegistrationRequest.c:67-92 asn_DEF_mbmsRegistrationRequest_ies_2 *)
Definition T_RANAP_MBMSRegistrationRequest__mbmsRegistrationRequest_ies_2 : ty := TSeqOf (Some (mkCon false 0 65535)) T_RANAP_IE.
(* src/ranap/RANAP_MBMSRegistrationRequest.c:120-145 asn_DEF_RANAP_MBMSRegistrationRequest *)
Definition T_RANAP_MBMSRegistrationRequest : ty := TSeq true
    [(false, T_RANAP_MBMSRegistrationRequest__mbmsRegistrationRequest_ies_2)]
    [].
(* src/ranap/RANAP_MBMSRegistrationRequestType.c:143-167 asn_DEF_RANAP_MBMSRegistrationRequestType *)
Definition T_RANAP_MBMSRegistrationRequestType : ty := TEnum true [0; 1] [].
(* src/ranap/RANAP_MBMSRegistrationResponse.c:67-92 asn_DEF_mbmsRegistrationResponse_ies_2 *)
Definition T_RANAP_MBMSRegistrationResponse__mbmsRegistrationResponse_ies_2 : ty := TSeqOf (Some (mkCon false 0 65535)) T_RANAP_IE.
(* src/ranap/RANAP_MBMSRegistrationResponse.c:120-145 asn_DEF_RANAP_MBMSRegistrationResponse *)
Definition T_RANAP_MBMSRegistrationResponse : ty := TSeq true
    [(false, T_RANAP_MBMSRegistrationResponse__mbmsRegistrationResponse_ies_2)]
    [].
(* src/ranap/RANAP_MBMSServiceArea.c:119-143 asn_DEF_RANAP_MBMSServiceArea *)
Definition T_RANAP_MBMSServiceArea : ty := TOcts None.
(* src/ranap/RANAP_MBMSSessionDuration.c:142-166 asn_DEF_RANAP_MBMSSessionDuration *)
Definition T_RANAP_MBMSSessionDuration : ty := TOcts (Some (mkCon false 3 3)).
(* src/ranap/RANAP_MBMSSessionIdentity.c:142-166 asn_DEF_RANAP_MBMSSessionIdentity *)
Definition T_RANAP_MBMSSessionIdentity : ty := TOcts (Some (mkCon false 1 1)).
(* src/ranap/RANAP_MBMSSessionRepetitionNumber.c:142-166 asn_DEF_RANAP_MBMSSessionRepetitionNumber *)
Definition T_RANAP_MBMSSessionRepetitionNumber : ty := TOcts (Some (mkCon false 1 1)).
(* src/ranap/RANAP_MBMSSessionStart.c:67-92 asn_DEF_mbmsSessionStart_ies_2 *)
Definition T_RANAP_MBMSSessionStart__mbmsSessionStart_ies_2 : ty := TSeqOf (Some (mkCon false 0 65535)) T_RANAP_IE.
(* src/ranap/RANAP_MBMSSessionStart.c:120-145 asn_DEF_RANAP_MBMSSessionStart *)
Definition T_RANAP_MBMSSessionStart : ty := TSeq true
    [(false, T_RANAP_MBMSSessionStart__mbmsSessionStart_ies_2)]
    [].
(* src/ranap/RANAP_MBMSSessionStartFailure.c:67-92 asn_DEF_mbmsSessionStartFailure_ies_2 *)
Definition T_RANAP_MBMSSessionStartFailure__mbmsSessionStartFailure_ies_2 : ty := TSeqOf (Some (mkCon false 0 65535)) T_RANAP_IE.
(* src/ranap/RANAP_MBMSSessionStartFailure.c:120-145 asn_DEF_RANAP_MBMSSessionStartFailure *)
Definition T_RANAP_MBMSSessionStartFailure : ty := TSeq true
    [(false, T_RANAP_MBMSSessionStartFailure__mbmsSessionStartFailure_ies_2)]
    [].
(* src/ranap/RANAP_MBMSSessionStartResponse.c:67-92 asn_DEF_mbmsSessionStartResponse_ies_2 *)
Definition T_RANAP_MBMSSessionStartResponse__mbmsSessionStartResponse_ies_2 : ty := TSeqOf (Some (mkCon false 0 65535)) T_RANAP_IE.
(* src/ranap/RANAP_MBMSSessionStartResponse.c:120-145 asn_DEF_RANAP_MBMSSessionStartResponse *)
Definition T_RANAP_MBMSSessionStartResponse : ty := TSeq true
    [(false, T_RANAP_MBMSSessionStartResponse__mbmsSessionStartResponse_ies_2)]
    [].
(* src/ranap/RANAP_MBMSSessionStop.c:67-92 asn_DEF_mbmsSessionStop_ies_2 *)
Definition T_RANAP_MBMSSessionStop__mbmsSessionStop_ies_2 : ty := TSeqOf (Some (mkCon false 0 65535)) T_RANAP_IE.
(* src/ranap/RANAP_MBMSSessionStop.c:120-145 asn_DEF_RANAP_MBMSSessionStop *)
Definition T_RANAP_MBMSSessionStop : ty := TSeq true
    [(false, T_RANAP_MBMSSessionStop__mbmsSessionStop_ies_2)]
    [].
(* src/ranap/RANAP_MBMSSessionStopResponse.c:67-92 asn_DEF_mbmsSessionStopResponse_ies_2 *)
Definition T_RANAP_MBMSSessionStopResponse__mbmsSessionStopResponse_ies_2 : ty := TSeqOf (Some (mkCon false 0 65535)) T_RANAP_IE.
(* src/ranap/RANAP_MBMSSessionStopResponse.c:120-145 asn_DEF_RANAP_MBMSSessionStopResponse *)
Definition T_RANAP_MBMSSessionStopResponse : ty := TSeq true
    [(false, T_RANAP_MBMSSessionStopResponse__mbmsSessionStopResponse_ies_2)]
    [].
(* src/ranap/RANAP_MBMSSessionUpdate.c:67-92 asn_DEF_mbmsSessionUpdate_ies_2 *)
Definition T_RANAP_MBMSSessionUpdate__mbmsSessionUpdate_ies_2 : ty := TSeqOf (Some (mkCon false 0 65535)) T_RANAP_IE.
(* src/ranap/RANAP_MBMSSessionUpdate.c:120-145 asn_DEF_RANAP_MBMSSessionUpdate *)
Definition T_RANAP_MBMSSessionUpdate : ty := TSeq true
    [(false, T_RANAP_MBMSSessionUpdate__mbmsSessionUpdate_ies_2)]
    [].
(* src/ranap/RANAP_MBMSSessionUpdateFailure.c:67-92 asn_DEF_mbmsSessionUpdateFailure_ies_2 *)
Definition T_RANAP_MBMSSessionUpdateFailure__mbmsSessionUpdateFailure_ies_2 : ty := TSeqOf (Some (mkCon false 0 65535)) T_RANAP_IE.
(* src/ranap/RANAP_MBMSSessionUpdateFailure.c:120-145 asn_DEF_RANAP_MBMSSessionUpdateFailure *)
Definition T_RANAP_MBMSSessionUpdateFailure : ty := TSeq true
    [(false, T_RANAP_MBMSSessionUpdateFailure__mbmsSessionUpdateFailure_ies_2)]
    [].
(* src/ranap/RANAP_MBMSSessionUpdateResponse.c:67-92 asn_DEF_mbmsSessionUpdateResponse_ies_2 *)
Definition T_RANAP_MBMSSessionUpdateResponse__mbmsSessionUpdateResponse_ies_2 : ty := TSeqOf (Some (mkCon false 0 65535)) T_RANAP_IE.
(* src/ranap/RANAP_MBMSSessionUpdateResponse.c:120-145 asn_DEF_RANAP_MBMSSessionUpdateResponse *)
Definition T_RANAP_MBMSSessionUpdateResponse : ty := TSeq true
    [(false, T_RANAP_MBMSSessionUpdateResponse__mbmsSessionUpdateResponse_ies_2)]
    [].
(* src/ranap/RANAP_MBMSSynchronisationInformation.c:68-93 asn_DEF_RANAP_MBMSSynchronisationInformation *)
Definition T_RANAP_MBMSSynchronisationInformation : ty := TSeq true
    [(false, T_RANAP_MBMSHCIndicator); (false, T_RANAP_IPMulticastAddress); (false, T_RANAP_GTP_TEI); (true, T_RANAP_ProtocolExtensionContainer)]
    [].
(* src/ranap/RANAP_MBMSUELinkingRequest.c:67-92 asn_DEF_mbmsueLinkingRequest_ies_2 *)
Definition T_RANAP_MBMSUELinkingRequest__mbmsueLinkingRequest_ies_2 : ty := TSeqOf (Some (mkCon false 0 65535)) T_RANAP_IE.
(* src/ranap/RANAP_MBMSUELinkingRequest.c:120-145 asn_DEF_RANAP_MBMSUELinkingRequest *)
Definition T_RANAP_MBMSUELinkingRequest : ty := TSeq true
    [(false, T_RANAP_MBMSUELinkingRequest__mbmsueLinkingRequest_ies_2)]
    [].
(* src/ranap/RANAP_MBMSUELinkingResponse.c:67-92 asn_DEF_mbmsueLinkingResponse_ies_2 *)
Definition T_RANAP_MBMSUELinkingResponse__mbmsueLinkingResponse_ies_2 : ty := TSeqOf (Some (mkCon false 0 65535)) T_RANAP_IE.
(* src/ranap/RANAP_MBMSUELinkingResponse.c:120-145 asn_DEF_RANAP_MBMSUELinkingResponse *)
Definition T_RANAP_MBMSUELinkingResponse : ty := TSeq true
    [(false, T_RANAP_MBMSUELinkingResponse__mbmsueLinkingResponse_ies_2)]
    [].
(* src/ranap/RANAP_MDT-Activation.c:145-169 asn_DEF_RANAP_MDT_Activation *)
Definition T_RANAP_MDT_Activation : ty := TEnum true [0; 1; 2] [].
(* src/ranap/RANAP_RAI.c:58-83 asn_DEF_RANAP_RAI *)
Definition T_RANAP_RAI : ty := TSeq true
    [(false, T_RANAP_LAI); (false, T_RANAP_RAC); (true, T_RANAP_IE_Extensions)]
    [].
(* src/ranap/RANAP_RAI-List.c:34-59 asn_DEF_RANAP_RAI_List *)
Definition T_RANAP_RAI_List : ty := TSeqOf (Some (mkCon false 1 8)) T_RANAP_RAI.
(* src/ranap/RANAP_RABased.c:48-73 asn_DEF_RANAP_RABased *)
Definition T_RANAP_RABased : ty := TSeq true
    [(false, T_RANAP_RAI_List); (true, T_RANAP_IE_Extensions)]
    [].
(* src/ranap/RANAP_MDTAreaScope.c:69-92 asn_DEF_RANAP_MDTAreaScope *)
Definition T_RANAP_MDTAreaScope : ty := TChoice true
    [T_RANAP_CellBased; T_RANAP_LABased; T_RANAP_RABased; TNull]
    [].
(* src/ranap/RANAP_MDTMode.c:49-72 asn_DEF_RANAP_MDTMode *)
Definition T_RANAP_MDTMode : ty := TChoice true
    [T_RANAP_ImmediateMDT; T_RANAP_LoggedMDT]
    [].
(* src/ranap/RANAP_MDT-Configuration.c:68-93 asn_DEF_RANAP_MDT_Configuration *)
Definition T_RANAP_MDT_Configuration : ty := TSeq true
    [(false, T_RANAP_MDT_Activation); (false, T_RANAP_MDTAreaScope); (false, T_RANAP_MDTMode); (true, T_RANAP_IE_Extensions)]
    [].
(* src/ranap/RANAP_MDT-PLMN-List.c:34-59 asn_DEF_RANAP_MDT_PLMN_List *)
Definition T_RANAP_MDT_PLMN_List : ty := TSeqOf (Some (mkCon false 1 16)) T_RANAP_PLMNidentity.
(* src/ranap/RANAP_MSISDN.c:142-166 asn_DEF_RANAP_MSISDN *)
Definition T_RANAP_MSISDN : ty := TOcts (Some (mkCon false 1 9)).
(* src/ranap/RANAP_Management-Based-MDT-Allowed.c:141-165 asn_DEF_RANAP_Management_Based_MDT_Allowed *)
Definition T_RANAP_Management_Based_MDT_Allowed : ty := TEnum true [0] [].
(* src/ranap/RANAP_MaxSDU-Size.c:141-165 asn_DEF_RANAP_MaxSDU_Size *)
Definition T_RANAP_MaxSDU_Size : ty := TInt (Some (mkCon false 0 32768)).
(* src/ranap/RANAP_RepetitionNumber1.c:141-165 asn_DEF_RANAP_RepetitionNumber1 *)
Definition T_RANAP_RepetitionNumber1 : ty := TInt (Some (mkCon false 1 256)).
(* src/ranap/RANAP_MessageStructure-Value.c:58-83 asn_DEF_RANAP_MessageStructure_Value *)
Definition T_RANAP_MessageStructure_Value : ty := TSeq true
    [(false, T_RANAP_ProtocolIE_ID); (true, T_RANAP_RepetitionNumber1); (true, T_RANAP_IE_Extensions)]
    [].
(* src/ranap/RANAP_MessageStructure.c:34-59 asn_DEF_RANAP_MessageStructure *)
Definition T_RANAP_MessageStructure : ty := TSeqOf (Some (mkCon false 1 256)) T_RANAP_MessageStructure_Value.
(* src/ranap/RANAP_NAS-SequenceNumber.c:147-171 asn_DEF_RANAP_NAS_SequenceNumber *)
Definition T_RANAP_NAS_SequenceNumber : ty := TBits (Some (mkCon false 2 2)).
(* src/ranap/RANAP_NAS-SynchronisationIndicator.c:147-171 asn_DEF_RANAP_NAS_SynchronisationIndicator *)
Definition T_RANAP_NAS_SynchronisationIndicator : ty := TBits (Some (mkCon false 4 4)).
(* src/ranap/RANAP_NewBSS-To-OldBSS-Information.c:119-143 asn_DEF_RANAP_NewBSS_To_OldBSS_Information *)
Definition T_RANAP_NewBSS_To_OldBSS_Information : ty := TOcts None.
(* src/ranap/RANAP_NonSearchingIndication.c:141-165 asn_DEF_RANAP_NonSearchingIndication *)
Definition T_RANAP_NonSearchingIndication : ty := TEnum false [0; 1] [].
(* src/ranap/RANAP_RAofIdleModeUEs.c:34-59 asn_DEF_RANAP_RAofIdleModeUEs *)
Definition T_RANAP_RAofIdleModeUEs : ty := TSeqOf (Some (mkCon false 1 65536)) T_RANAP_RAC.
(* src/ranap/RANAP_NotEmptyRAListofIdleModeUEs.c:48-73 asn_DEF_RANAP_NotEmptyRAListofIdleModeUEs *)
Definition T_RANAP_NotEmptyRAListofIdleModeUEs : ty := TSeq false
    [(false, T_RANAP_RAofIdleModeUEs); (true, T_RANAP_IE_Extensions)]
    [].
(* src/ranap/RANAP_NumberOfIuInstances.c:141-165 asn_DEF_RANAP_NumberOfIuInstances *)
Definition T_RANAP_NumberOfIuInstances : ty := TInt (Some (mkCon false 1 2)).
(* src/ranap/RANAP_NumberOfSteps.c:141-165 asn_DEF_RANAP_NumberOfSteps *)
Definition T_RANAP_NumberOfSteps : ty := TInt (Some (mkCon false 1 16)).
(* src/ranap/RANAP_OMC-ID.c:142-166 asn_DEF_RANAP_OMC_ID *)
Definition T_RANAP_OMC_ID : ty := TOcts (Some (mkCon false 3 22)).
(* src/ranap/RANAP_Offload-RAB-Parameters-APN.c:142-166 asn_DEF_RANAP_Offload_RAB_Parameters_APN *)
Definition T_RANAP_Offload_RAB_Parameters_APN : ty := TOcts (Some (mkCon false 1 255)).
(* src/ranap/RANAP_Offload-RAB-Parameters-ChargingCharacteristics.c:142-166 asn_DEF_RANAP_Offload_RAB_Parameters_ChargingCharacteristics *)
Definition T_RANAP_Offload_RAB_Parameters_ChargingCharacteristics : ty := TOcts (Some (mkCon false 2 2)).
(* src/ranap/RANAP_Offload-RAB-Parameters.c:58-83 asn_DEF_RANAP_Offload_RAB_Parameters *)
Definition T_RANAP_Offload_RAB_Parameters : ty := TSeq true
    [(false, T_RANAP_Offload_RAB_Parameters_APN); (false, T_RANAP_Offload_RAB_Parameters_ChargingCharacteristics); (true, T_RANAP_IE_Extensions)]
    [].
(* src/ranap/RANAP_OldBSS-ToNewBSS-Information.c:119-143 asn_DEF_RANAP_OldBSS_ToNewBSS_Information *)
Definition T_RANAP_OldBSS_ToNewBSS_Information : ty := TOcts None.
(* src/ranap/RANAP_Out-Of-UTRAN.c:141-165 asn_DEF_RANAP_Out_Of_UTRAN *)
Definition T_RANAP_Out_Of_UTRAN : ty := TEnum true [0] [].
(* src/ranap/RANAP_Outcome.c:56-81 asn_DEF_RANAP_Outcome *)
Definition T_RANAP_Outcome : ty := TSeq false
    [(false, T_RANAP_ProcedureCode); (false, T_RANAP_Criticality); (false, (TOcts None))]
    [].
(* src/ranap/RANAP_Overload.c:67-92 asn_DEF_overload_ies_2 *)
Definition T_RANAP_Overload__overload_ies_2 : ty := TSeqOf (Some (mkCon false 0 65535)) T_RANAP_IE.
(* src/ranap/RANAP_Overload.c:120-145 asn_DEF_RANAP_Overload *)
Definition T_RANAP_Overload : ty := TSeq true
    [(false, T_RANAP_Overload__overload_ies_2)]
    [].
(* src/ranap/RANAP_P-TMSI.c:142-166 asn_DEF_RANAP_P_TMSI *)
Definition T_RANAP_P_TMSI : ty := TOcts (Some (mkCon false 4 4)).
(* src/ranap/RANAP_PDP-Type-extension.c:141-165 asn_DEF_RANAP_PDP_Type_extension *)
Definition T_RANAP_PDP_Type_extension : ty := TEnum true [0] [].
(* src/ranap/RANAP_PDP-Type.c:149-173 asn_DEF_RANAP_PDP_Type *)
Definition T_RANAP_PDP_Type : ty := TEnum true [0; 1; 2; 3; 4] [].
(* src/ranap/RANAP_PDP-TypeInformation-extension.c:34-59 asn_DEF_RANAP_PDP_TypeInformation_extension *)
Definition T_RANAP_PDP_TypeInformation_extension : ty := TSeqOf (Some (mkCon false 1 2)) T_RANAP_PDP_Type_extension.
(* src/ranap/RANAP_PDP-TypeInformation.c:34-59 asn_DEF_RANAP_PDP_TypeInformation *)
Definition T_RANAP_PDP_TypeInformation : ty := TSeqOf (Some (mkCon false 1 2)) T_RANAP_PDP_Type.
(* src/ranap/RANAP_PDUType14FrameSequenceNumber.c:141-165 asn_DEF_RANAP_PDUType14FrameSequenceNumber *)
Definition T_RANAP_PDUType14FrameSequenceNumber : ty := TInt (Some (mkCon false 0 3)).
(* src/ranap/RANAP_PLMNs-in-shared-network-Value.c:58-83 asn_DEF_RANAP_PLMNs_in_shared_network_Value *)
Definition T_RANAP_PLMNs_in_shared_network_Value : ty := TSeq true
    [(false, T_RANAP_PLMNidentity); (false, T_RANAP_LA_LIST); (true, T_RANAP_IE_Extensions)]
    [].
(* src/ranap/RANAP_PLMNs-in-shared-network.c:34-59 asn_DEF_RANAP_PLMNs_in_shared_network *)
Definition T_RANAP_PLMNs_in_shared_network : ty := TSeqOf (Some (mkCon false 1 32)) T_RANAP_PLMNs_in_shared_network_Value.
(* src/ranap/RANAP_Paging.c:67-92 asn_DEF_paging_ies_2 *)
Definition T_RANAP_Paging__paging_ies_2 : ty := TSeqOf (Some (mkCon false 0 65535)) T_RANAP_IE.
(* src/ranap/RANAP_Paging.c:120-145 asn_DEF_RANAP_Paging *)
Definition T_RANAP_Paging : ty := TSeq true
    [(false, T_RANAP_Paging__paging_ies_2)]
    [].
(* src/ranap/RANAP_PagingAreaID.c:49-72 asn_DEF_RANAP_PagingAreaID *)
Definition T_RANAP_PagingAreaID : ty := TChoice true
    [T_RANAP_LAI; T_RANAP_RAI]
    [].
(* src/ranap/RANAP_PagingCause.c:151-175 asn_DEF_RANAP_PagingCause *)
Definition T_RANAP_PagingCause : ty := TEnum true [0; 1; 2; 3; 4] [5].
(* src/ranap/RANAP_Port-Number.c:142-166 asn_DEF_RANAP_Port_Number *)
Definition T_RANAP_Port_Number : ty := TOcts (Some (mkCon false 2 2)).
(* src/ranap/RANAP_PositioningDataDiscriminator.c:147-171 asn_DEF_RANAP_PositioningDataDiscriminator *)
Definition T_RANAP_PositioningDataDiscriminator : ty := TBits (Some (mkCon false 4 4)).
(* src/ranap/RANAP_PositioningMethodAndUsage.c:142-166 asn_DEF_RANAP_PositioningMethodAndUsage *)
Definition T_RANAP_PositioningMethodAndUsage : ty := TOcts (Some (mkCon false 1 1)).
(* src/ranap/RANAP_PositioningDataSet.c:34-59 asn_DEF_RANAP_PositioningDataSet *)
Definition T_RANAP_PositioningDataSet : ty := TSeqOf (Some (mkCon false 1 9)) T_RANAP_PositioningMethodAndUsage.
(* src/ranap/RANAP_PositionData.c:58-83 asn_DEF_RANAP_PositionData *)
Definition T_RANAP_PositionData : ty := TSeq true
    [(false, T_RANAP_PositioningDataDiscriminator); (true, T_RANAP_PositioningDataSet); (true, T_RANAP_IE_Extensions)]
    [].
(* src/ranap/RANAP_PositionDataSpecificToGERANIuMode.c:119-143 asn_DEF_RANAP_PositionDataSpecificToGERANIuMode *)
Definition T_RANAP_PositionDataSpecificToGERANIuMode : ty := TOcts None.
(* src/ranap/RANAP_Presence.c:143-167 asn_DEF_RANAP_Presence *)
Definition T_RANAP_Presence : ty := TEnum false [0; 1; 2] [].
(* src/ranap/RANAP_Priority-Class-Indicator.c:147-171 asn_DEF_RANAP_Priority_Class_Indicator *)
Definition T_RANAP_Priority_Class_Indicator : ty := TBits (Some (mkCon false 8 8)).
(* src/ranap/RANAP_PrivateIE-ID.c:79-102 asn_DEF_RANAP_PrivateIE_ID *)
Definition T_RANAP_PrivateIE_ID : ty := TChoice false
    [(TInt (Some (mkCon false 0 65535))); (TOcts None)]
    [].
(* src/ranap/RANAP_PrivateMessage.c:67-92 asn_DEF_privateMessage_ies_2 *)
Definition T_RANAP_PrivateMessage__privateMessage_ies_2 : ty := TSeqOf (Some (mkCon false 0 65535)) T_RANAP_IE.
(* src/ranap/RANAP_PrivateMessage.c:120-145 asn_DEF_RANAP_PrivateMessage *)
Definition T_RANAP_PrivateMessage : ty := TSeq true
    [(false, T_RANAP_PrivateMessage__privateMessage_ies_2)]
    [].
(* src/ranap/RANAP_ProtocolError-IE-ContainerList.c:34-59 asn_DEF_RANAP_ProtocolError_IE_ContainerList *)
Definition T_RANAP_ProtocolError_IE_ContainerList : ty := TSeqOf (Some (mkCon false 1 256)) T_RANAP_ProtocolIE_Container.
(* src/ranap/RANAP_ProtocolExtensionID.c:141-165 asn_DEF_RANAP_ProtocolExtensionID *)
Definition T_RANAP_ProtocolExtensionID : ty := TInt (Some (mkCon false 0 65535)).
(* src/ranap/RANAP_ProtocolIE-FieldPair.c:76-101 asn_DEF_RANAP_ProtocolIE_FieldPair *)
Definition T_RANAP_ProtocolIE_FieldPair : ty := TSeq false
    [(false, T_RANAP_ProtocolIE_ID); (false, T_RANAP_Criticality); (false, (TOcts None)); (false, T_RANAP_Criticality); (false, (TOcts None))]
    [].
(* src/ranap/RANAP_ProtocolIE-ContainerPair.c:34-59 asn_DEF_RANAP_ProtocolIE_ContainerPair *)
Definition T_RANAP_ProtocolIE_ContainerPair : ty := TSeqOf (Some (mkCon false 0 65535)) T_RANAP_ProtocolIE_FieldPair.
(* src/ranap/RANAP_Shared-Network-Information.c:48-73 asn_DEF_RANAP_Shared_Network_Information *)
Definition T_RANAP_Shared_Network_Information : ty := TSeq true
    [(false, T_RANAP_PLMNs_in_shared_network); (true, T_RANAP_IE_Extensions)]
    [].
(* src/ranap/RANAP_ProvidedData.c:39-62 asn_DEF_RANAP_ProvidedData *)
Definition T_RANAP_ProvidedData : ty := TChoice true
    [T_RANAP_Shared_Network_Information]
    [].
(* src/ranap/RANAP_RAB-AssignmentRequest.c:67-92 asn_DEF_raB_AssignmentRequest_ies_2 *)
Definition T_RANAP_RAB_AssignmentRequest__raB_AssignmentRequest_ies_2 : ty := TSeqOf (Some (mkCon false 0 65535)) T_RANAP_IE.
(* src/ranap/RANAP_RAB-AssignmentRequest.c:120-145 asn_DEF_RANAP_RAB_AssignmentRequest *)
Definition T_RANAP_RAB_AssignmentRequest : ty := TSeq true
    [(false, T_RANAP_RAB_AssignmentRequest__raB_AssignmentRequest_ies_2)]
    [].
(* src/ranap/RANAP_RAB-AssignmentResponse.c:67-92 asn_DEF_raB_AssignmentResponse_ies_2 *)
Definition T_RANAP_RAB_AssignmentResponse__raB_AssignmentResponse_ies_2 : ty := TSeqOf (Some (mkCon false 0 65535)) T_RANAP_IE.
(* src/ranap/RANAP_RAB-AssignmentResponse.c:120-145 asn_DEF_RANAP_RAB_AssignmentResponse *)
Definition T_RANAP_RAB_AssignmentResponse : ty := TSeq true
    [(false, T_RANAP_RAB_AssignmentResponse__raB_AssignmentResponse_ies_2)]
    [].
(* src/ranap/RANAP_RAB-AsymmetryIndicator.c:147-171 asn_DEF_RANAP_RAB_AsymmetryIndicator *)
Definition T_RANAP_RAB_AsymmetryIndicator : ty := TEnum true [0; 1; 2; 3] [].
(* src/ranap/RANAP_UL-GTP-PDU-SequenceNumber.c:141-165 asn_DEF_RANAP_UL_GTP_PDU_SequenceNumber *)
Definition T_RANAP_UL_GTP_PDU_SequenceNumber : ty := TInt (Some (mkCon false 0 65535)).
(* src/ranap/RANAP_UL-N-PDU-SequenceNumber.c:141-165 asn_DEF_RANAP_UL_N_PDU_SequenceNumber *)
Definition T_RANAP_UL_N_PDU_SequenceNumber : ty := TInt (Some (mkCon false 0 65535)).
(* src/ranap/RANAP_RAB-ContextItem-RANAP-RelocInf.c:88-113 asn_DEF_RANAP_RAB_ContextItem_RANAP_RelocInf *)
Definition T_RANAP_RAB_ContextItem_RANAP_RelocInf : ty := TSeq true
    [(false, T_RANAP_RAB_ID); (true, T_RANAP_DL_GTP_PDU_SequenceNumber); (true, T_RANAP_UL_GTP_PDU_SequenceNumber); (true, T_RANAP_DL_N_PDU_SequenceNumber); (true, T_RANAP_UL_N_PDU_SequenceNumber); (true, T_RANAP_ProtocolExtensionContainer)]
    [].
(* src/ranap/RANAP_RAB-ContextItem.c:88-113 asn_DEF_RANAP_RAB_ContextItem *)
Definition T_RANAP_RAB_ContextItem : ty := TSeq true
    [(false, T_RANAP_RAB_ID); (true, T_RANAP_DL_GTP_PDU_SequenceNumber); (true, T_RANAP_UL_GTP_PDU_SequenceNumber); (true, T_RANAP_DL_N_PDU_SequenceNumber); (true, T_RANAP_UL_N_PDU_SequenceNumber); (true, T_RANAP_ProtocolExtensionContainer)]
    [].
(* src/ranap/RANAP_RAB-ContextList-RANAP-RelocInf.c:67-92 asn_DEF_raB_ContextList_RANAP_RelocInf_ies_2 *)
Definition T_RANAP_RAB_ContextList_RANAP_RelocInf__raB_ContextList_RANAP_RelocInf_ies_2 : ty := TSeqOf (Some (mkCon false 0 65535)) T_RANAP_IE.
(* src/ranap/RANAP_RAB-ContextList-RANAP-RelocInf.c:120-145 asn_DEF_RANAP_RAB_ContextList_RANAP_RelocInf *)
Definition T_RANAP_RAB_ContextList_RANAP_RelocInf : ty := TSeq true
    [(false, T_RANAP_RAB_ContextList_RANAP_RelocInf__raB_ContextList_RANAP_RelocInf_ies_2)]
    [].
(* src/ranap/RANAP_RAB-ContextList.c:67-92 asn_DEF_raB_ContextList_ies_2 *)
Definition T_RANAP_RAB_ContextList__raB_ContextList_ies_2 : ty := TSeqOf (Some (mkCon false 0 65535)) T_RANAP_IE.
(* src/ranap/RANAP_RAB-ContextList.c:120-145 asn_DEF_RANAP_RAB_ContextList *)
Definition T_RANAP_RAB_ContextList : ty := TSeq true
    [(false, T_RANAP_RAB_ContextList__raB_ContextList_ies_2)]
    [].
(* src/ranap/RANAP_RAB-DataForwardingItem-SRNS-CtxReq.c:48-73 asn_DEF_RANAP_RAB_DataForwardingItem_SRNS_CtxReq *)
Definition T_RANAP_RAB_DataForwardingItem_SRNS_CtxReq : ty := TSeq true
    [(false, T_RANAP_RAB_ID); (true, T_RANAP_ProtocolExtensionContainer)]
    [].
(* src/ranap/RANAP_TransportLayerAddress.c:147-171 asn_DEF_RANAP_TransportLayerAddress *)
Definition T_RANAP_TransportLayerAddress : ty := TBits (Some (mkCon true 1 160)).
(* src/ranap/RANAP_RAB-DataForwardingItem.c:68-93 asn_DEF_RANAP_RAB_DataForwardingItem *)
Definition T_RANAP_RAB_DataForwardingItem : ty := TSeq true
    [(false, T_RANAP_RAB_ID); (false, T_RANAP_TransportLayerAddress); (false, T_RANAP_IuTransportAssociation); (true, T_RANAP_ProtocolExtensionContainer)]
    [].
(* src/ranap/RANAP_RAB-DataForwardingList-SRNS-CtxReq.c:67-92 asn_DEF_raB_DataForwardingList_SRNS_CtxReq_ies_2 *)
Definition T_RANAP_RAB_DataForwardingList_SRNS_CtxReq__raB_DataForwardingList_SRNS_CtxReq_ies_2 : ty := TSeqOf (Some (mkCon false 0 65535)) T_RANAP_IE.
(* src/ranap/RANAP_RAB-DataForwardingList-SRNS-CtxReq.c:120-145 asn_DEF_RANAP_RAB_DataForwardingList_SRNS_CtxReq *)
Definition T_RANAP_RAB_DataForwardingList_SRNS_CtxReq : ty := TSeq true
    [(false, T_RANAP_RAB_DataForwardingList_SRNS_CtxReq__raB_DataForwardingList_SRNS_CtxReq_ies_2)]
    [].
(* src/ranap/RANAP_RAB-DataForwardingList.c:67-92 asn_DEF_raB_DataForwardingList_ies_2 *)
Definition T_RANAP_RAB_DataForwardingList__raB_DataForwardingList_ies_2 : ty := TSeqOf (Some (mkCon false 0 65535)) T_RANAP_IE.
(* src/ranap/RANAP_RAB-DataForwardingList.c:120-145 asn_DEF_RANAP_RAB_DataForwardingList *)
Definition T_RANAP_RAB_DataForwardingList : ty := TSeq true
    [(false, T_RANAP_RAB_DataForwardingList__raB_DataForwardingList_ies_2)]
    [].
(* src/ranap/RANAP_RAB-DataVolumeReportItem.c:58-83 asn_DEF_RANAP_RAB_DataVolumeReportItem *)
Definition T_RANAP_RAB_DataVolumeReportItem : ty := TSeq true
    [(false, T_RANAP_RAB_ID); (true, T_RANAP_DataVolumeList); (true, T_RANAP_ProtocolExtensionContainer)]
    [].
(* src/ranap/RANAP_RAB-DataVolumeReportList.c:67-92 asn_DEF_raB_DataVolumeReportList_ies_2 *)
Definition T_RANAP_RAB_DataVolumeReportList__raB_DataVolumeReportList_ies_2 : ty := TSeqOf (Some (mkCon false 0 65535)) T_RANAP_IE.
(* src/ranap/RANAP_RAB-DataVolumeReportList.c:120-145 asn_DEF_RANAP_RAB_DataVolumeReportList *)
Definition T_RANAP_RAB_DataVolumeReportList : ty := TSeq true
    [(false, T_RANAP_RAB_DataVolumeReportList__raB_DataVolumeReportList_ies_2)]
    [].
(* src/ranap/RANAP_RAB-DataVolumeReportRequestItem.c:48-73 asn_DEF_RANAP_RAB_DataVolumeReportRequestItem *)
Definition T_RANAP_RAB_DataVolumeReportRequestItem : ty := TSeq true
    [(false, T_RANAP_RAB_ID); (true, T_RANAP_ProtocolExtensionContainer)]
    [].
(* src/ranap/RANAP_RAB-DataVolumeReportRequestList.c:67-92 asn_DEF_raB_DataVolumeReportRequestList_ies_2 *)
Definition T_RANAP_RAB_DataVolumeReportRequestList__raB_DataVolumeReportRequestList_ies_2 : ty := TSeqOf (Some (mkCon false 0 65535)) T_RANAP_IE.
(* src/ranap/RANAP_RAB-DataVolumeReportRequestList.c:120-145 asn_DEF_RANAP_RAB_DataVolumeReportRequestList *)
Definition T_RANAP_RAB_DataVolumeReportRequestList : ty := TSeq true
    [(false, T_RANAP_RAB_DataVolumeReportRequestList__raB_DataVolumeReportRequestList_ies_2)]
    [].
(* src/ranap/RANAP_RAB-FailedItem-EnhRelocInfoRes.c:68-93 asn_DEF_RANAP_RAB_FailedItem_EnhRelocInfoRes *)
Definition T_RANAP_RAB_FailedItem_EnhRelocInfoRes : ty := TSeq true
    [(false, T_RANAP_CN_DomainIndicator); (false, T_RANAP_RAB_ID); (false, T_RANAP_Cause); (true, T_RANAP_ProtocolExtensionContainer)]
    [].
(* src/ranap/RANAP_RAB-FailedItem.c:58-83 asn_DEF_RANAP_RAB_FailedItem *)
Definition T_RANAP_RAB_FailedItem : ty := TSeq true
    [(false, T_RANAP_RAB_ID); (false, T_RANAP_Cause); (true, T_RANAP_ProtocolExtensionContainer)]
    [].
(* src/ranap/RANAP_RAB-FailedList-EnhRelocInfoRes.c:67-92 asn_DEF_raB_FailedList_EnhRelocInfoRes_ies_2 *)
Definition T_RANAP_RAB_FailedList_EnhRelocInfoRes__raB_FailedList_EnhRelocInfoRes_ies_2 : ty := TSeqOf (Some (mkCon false 0 65535)) T_RANAP_IE.
(* src/ranap/RANAP_RAB-FailedList-EnhRelocInfoRes.c:120-145 asn_DEF_RANAP_RAB_FailedList_EnhRelocInfoRes *)
Definition T_RANAP_RAB_FailedList_EnhRelocInfoRes : ty := TSeq true
    [(false, T_RANAP_RAB_FailedList_EnhRelocInfoRes__raB_FailedList_EnhRelocInfoRes_ies_2)]
    [].
(* src/ranap/RANAP_RAB-FailedList.c:67-92 asn_DEF_raB_FailedList_ies_2 *)
Definition T_RANAP_RAB_FailedList__raB_FailedList_ies_2 : ty := TSeqOf (Some (mkCon false 0 65535)) T_RANAP_IE.
(* src/ranap/RANAP_RAB-FailedList.c:120-145 asn_DEF_RANAP_RAB_FailedList *)
Definition T_RANAP_RAB_FailedList : ty := TSeq true
    [(false, T_RANAP_RAB_FailedList__raB_FailedList_ies_2)]
    [].
(* src/ranap/RANAP_RAB-IE-ContainerList.c:34-59 asn_DEF_RANAP_RAB_IE_ContainerList *)
Definition T_RANAP_RAB_IE_ContainerList : ty := TSeqOf (Some (mkCon false 1 256)) T_RANAP_ProtocolIE_Container.
(* src/ranap/RANAP_RAB-IE-ContainerPairList.c:34-59 asn_DEF_RANAP_RAB_IE_ContainerPairList *)
Definition T_RANAP_RAB_IE_ContainerPairList : ty := TSeqOf (Some (mkCon false 1 256)) T_RANAP_ProtocolIE_ContainerPair.
(* src/ranap/RANAP_Requested-RAB-Parameter-MaxBitrateList.c:34-59 asn_DEF_RANAP_Requested_RAB_Parameter_MaxBitrateList *)
Definition T_RANAP_Requested_RAB_Parameter_MaxBitrateList : ty := TSeqOf (Some (mkCon false 1 2)) T_RANAP_MaxBitrate.
(* src/ranap/RANAP_Requested-RAB-Parameter-GuaranteedBitrateList.c:34-59 asn_DEF_RANAP_Requested_RAB_Parameter_GuaranteedBitrateList *)
Definition T_RANAP_Requested_RAB_Parameter_GuaranteedBitrateList : ty := TSeqOf (Some (mkCon false 1 2)) T_RANAP_GuaranteedBitrate.
(* src/ranap/RANAP_Requested-RAB-Parameter-Values.c:58-83 asn_DEF_RANAP_Requested_RAB_Parameter_Values *)
Definition T_RANAP_Requested_RAB_Parameter_Values : ty := TSeq true
    [(true, T_RANAP_Requested_RAB_Parameter_MaxBitrateList); (true, T_RANAP_Requested_RAB_Parameter_GuaranteedBitrateList); (true, T_RANAP_IE_Extensions)]
    [].
(* src/ranap/RANAP_RAB-ModifyItem.c:58-83 asn_DEF_RANAP_RAB_ModifyItem *)
Definition T_RANAP_RAB_ModifyItem : ty := TSeq true
    [(false, T_RANAP_RAB_ID); (false, T_RANAP_Requested_RAB_Parameter_Values); (true, T_RANAP_ProtocolExtensionContainer)]
    [].
(* src/ranap/RANAP_RAB-ModifyList.c:67-92 asn_DEF_raB_ModifyList_ies_2 *)
Definition T_RANAP_RAB_ModifyList__raB_ModifyList_ies_2 : ty := TSeqOf (Some (mkCon false 0 65535)) T_RANAP_IE.
(* src/ranap/RANAP_RAB-ModifyList.c:120-145 asn_DEF_RANAP_RAB_ModifyList *)
Definition T_RANAP_RAB_ModifyList : ty := TSeq true
    [(false, T_RANAP_RAB_ModifyList__raB_ModifyList_ies_2)]
    [].
(* src/ranap/RANAP_RAB-ModifyRequest.c:67-92 asn_DEF_raB_ModifyRequest_ies_2 *)
Definition T_RANAP_RAB_ModifyRequest__raB_ModifyRequest_ies_2 : ty := TSeqOf (Some (mkCon false 0 65535)) T_RANAP_IE.
(* src/ranap/RANAP_RAB-ModifyRequest.c:120-145 asn_DEF_RANAP_RAB_ModifyRequest *)
Definition T_RANAP_RAB_ModifyRequest : ty := TSeq true
    [(false, T_RANAP_RAB_ModifyRequest__raB_ModifyRequest_ies_2)]
    [].
(* src/ranap/RANAP_RAB-Parameter-ExtendedGuaranteedBitrateList.c:34-59 asn_DEF_RANAP_RAB_Parameter_ExtendedGuaranteedBitrateList *)
Definition T_RANAP_RAB_Parameter_ExtendedGuaranteedBitrateList : ty := TSeqOf (Some (mkCon false 1 2)) T_RANAP_ExtendedGuaranteedBitrate.
(* src/ranap/RANAP_RAB-Parameter-ExtendedMaxBitrateList.c:34-59 asn_DEF_RANAP_RAB_Parameter_ExtendedMaxBitrateList *)
Definition T_RANAP_RAB_Parameter_ExtendedMaxBitrateList : ty := TSeqOf (Some (mkCon false 1 2)) T_RANAP_ExtendedMaxBitrate.
(* src/ranap/RANAP_RAB-Parameter-GuaranteedBitrateList.c:34-59 asn_DEF_RANAP_RAB_Parameter_GuaranteedBitrateList *)
Definition T_RANAP_RAB_Parameter_GuaranteedBitrateList : ty := TSeqOf (Some (mkCon false 1 2)) T_RANAP_GuaranteedBitrate.
(* src/ranap/RANAP_RAB-Parameter-MaxBitrateList.c:34-59 asn_DEF_RANAP_RAB_Parameter_MaxBitrateList *)
Definition T_RANAP_RAB_Parameter_MaxBitrateList : ty := TSeqOf (Some (mkCon false 1 2)) T_RANAP_MaxBitrate.
(* src/ranap/RANAP_TrafficClass.c:147-171 asn_DEF_RANAP_TrafficClass *)
Definition T_RANAP_TrafficClass : ty := TEnum true [0; 1; 2; 3] [].
(* src/ranap/RANAP_SDU-ErrorRatio.c:118-143 asn_DEF_RANAP_SDU_ErrorRatio *)
Definition T_RANAP_SDU_ErrorRatio : ty := TSeq false
    [(false, (TInt (Some (mkCon false 1 9)))); (false, (TInt (Some (mkCon false 1 6)))); (true, T_RANAP_IE_Extensions)]
    [].
(* src/ranap/RANAP_ResidualBitErrorRatio.c:118-143 asn_DEF_RANAP_ResidualBitErrorRatio *)
Definition T_RANAP_ResidualBitErrorRatio : ty := TSeq false
    [(false, (TInt (Some (mkCon false 1 9)))); (false, (TInt (Some (mkCon false 1 8)))); (true, T_RANAP_IE_Extensions)]
    [].
(* src/ranap/RANAP_SubflowSDU-Size.c:141-165 asn_DEF_RANAP_SubflowSDU_Size *)
Definition T_RANAP_SubflowSDU_Size : ty := TInt (Some (mkCon false 0 4095)).
(* src/ranap/RANAP_RAB-SubflowCombinationBitRate.c:141-165 asn_DEF_RANAP_RAB_SubflowCombinationBitRate *)
Definition T_RANAP_RAB_SubflowCombinationBitRate : ty := TInt (Some (mkCon false 0 16000000)).
(* src/ranap/RANAP_SDU-FormatInformationParameterItem.c:58-83 asn_DEF_RANAP_SDU_FormatInformationParameterItem *)
Definition T_RANAP_SDU_FormatInformationParameterItem : ty := TSeq true
    [(true, T_RANAP_SubflowSDU_Size); (true, T_RANAP_RAB_SubflowCombinationBitRate); (true, T_RANAP_IE_Extensions)]
    [].
(* src/ranap/RANAP_SDU-FormatInformationParameters.c:34-59 asn_DEF_RANAP_SDU_FormatInformationParameters *)
Definition T_RANAP_SDU_FormatInformationParameters : ty := TSeqOf (Some (mkCon false 1 64)) T_RANAP_SDU_FormatInformationParameterItem.
(* src/ranap/RANAP_SDU-ParameterItem.c:78-103 asn_DEF_RANAP_SDU_ParameterItem *)
Definition T_RANAP_SDU_ParameterItem : ty := TSeq true
    [(true, T_RANAP_SDU_ErrorRatio); (false, T_RANAP_ResidualBitErrorRatio); (false, T_RANAP_DeliveryOfErroneousSDU); (true, T_RANAP_SDU_FormatInformationParameters); (true, T_RANAP_IE_Extensions)]
    [].
(* src/ranap/RANAP_SDU-Parameters.c:34-59 asn_DEF_RANAP_SDU_Parameters *)
Definition T_RANAP_SDU_Parameters : ty := TSeqOf (Some (mkCon false 1 7)) T_RANAP_SDU_ParameterItem.
(* src/ranap/RANAP_TransferDelay.c:141-165 asn_DEF_RANAP_TransferDelay *)
Definition T_RANAP_TransferDelay : ty := TInt (Some (mkCon false 0 65535)).
(* src/ranap/RANAP_TrafficHandlingPriority.c:141-165 asn_DEF_RANAP_TrafficHandlingPriority *)
Definition T_RANAP_TrafficHandlingPriority : ty := TInt (Some (mkCon false 0 15)).
(* src/ranap/RANAP_SourceStatisticsDescriptor.c:143-167 asn_DEF_RANAP_SourceStatisticsDescriptor *)
Definition T_RANAP_SourceStatisticsDescriptor : ty := TEnum true [0; 1] [].
(* src/ranap/RANAP_RelocationRequirement.c:145-169 asn_DEF_RANAP_RelocationRequirement *)
Definition T_RANAP_RelocationRequirement : ty := TEnum true [0; 1] [2].
(* src/ranap/RANAP_RAB-Parameters.c:158-183 asn_DEF_RANAP_RAB_Parameters *)
Definition T_RANAP_RAB_Parameters : ty := TSeq true
    [(false, T_RANAP_TrafficClass); (false, T_RANAP_RAB_AsymmetryIndicator); (false, T_RANAP_RAB_Parameter_MaxBitrateList); (true, T_RANAP_RAB_Parameter_GuaranteedBitrateList); (false, T_RANAP_DeliveryOrder); (false, T_RANAP_MaxSDU_Size); (false, T_RANAP_SDU_Parameters); (true, T_RANAP_TransferDelay); (true, T_RANAP_TrafficHandlingPriority); (true, T_RANAP_AllocationOrRetentionPriority); (true, T_RANAP_SourceStatisticsDescriptor); (true, T_RANAP_RelocationRequirement); (true, T_RANAP_IE_Extensions)]
    [].
(* src/ranap/RANAP_RAB-QueuedItem.c:48-73 asn_DEF_RANAP_RAB_QueuedItem *)
Definition T_RANAP_RAB_QueuedItem : ty := TSeq true
    [(false, T_RANAP_RAB_ID); (true, T_RANAP_ProtocolExtensionContainer)]
    [].
(* src/ranap/RANAP_RAB-QueuedList.c:67-92 asn_DEF_raB_QueuedList_ies_2 *)
Definition T_RANAP_RAB_QueuedList__raB_QueuedList_ies_2 : ty := TSeqOf (Some (mkCon false 0 65535)) T_RANAP_IE.
(* src/ranap/RANAP_RAB-QueuedList.c:120-145 asn_DEF_RANAP_RAB_QueuedList *)
Definition T_RANAP_RAB_QueuedList : ty := TSeq true
    [(false, T_RANAP_RAB_QueuedList__raB_QueuedList_ies_2)]
    [].
(* src/ranap/RANAP_RAB-ReleaseFailedList.c:123-145 asn_DEF_RANAP_RAB_ReleaseFailedList *)
Definition T_RANAP_RAB_ReleaseFailedList : ty := T_RANAP_RAB_FailedList.
(* src/ranap/RANAP_RAB-ReleaseItem.c:58-83 asn_DEF_RANAP_RAB_ReleaseItem *)
Definition T_RANAP_RAB_ReleaseItem : ty := TSeq true
    [(false, T_RANAP_RAB_ID); (false, T_RANAP_Cause); (true, T_RANAP_ProtocolExtensionContainer)]
    [].
(* src/ranap/RANAP_RAB-ReleaseList.c:68-93 asn_DEF_raB_ReleaseList_ies_2 *)
Definition T_RANAP_RAB_ReleaseList__raB_ReleaseList_ies_2 : ty := TSeqOf (Some (mkCon false 0 65535)) T_RANAP_IE.
(* src/ranap/RANAP_RAB-ReleaseList.c:121-146 asn_DEF_RANAP_RAB_ReleaseList *)
Definition T_RANAP_RAB_ReleaseList : ty := TSeq true
    [(false, T_RANAP_RAB_ReleaseList__raB_ReleaseList_ies_2)]
    [].
(* src/ranap/RANAP_RAB-ReleaseRequest.c:67-92 asn_DEF_raB_ReleaseRequest_ies_2 *)
Definition T_RANAP_RAB_ReleaseRequest__raB_ReleaseRequest_ies_2 : ty := TSeqOf (Some (mkCon false 0 65535)) T_RANAP_IE.
(* src/ranap/RANAP_RAB-ReleaseRequest.c:120-145 asn_DEF_RANAP_RAB_ReleaseRequest *)
Definition T_RANAP_RAB_ReleaseRequest : ty := TSeq true
    [(false, T_RANAP_RAB_ReleaseRequest__raB_ReleaseRequest_ies_2)]
    [].
(* src/ranap/RANAP_RAB-ReleasedItem-IuRelComp.c:68-93 asn_DEF_RANAP_RAB_ReleasedItem_IuRelComp *)
Definition T_RANAP_RAB_ReleasedItem_IuRelComp : ty := TSeq true
    [(false, T_RANAP_RAB_ID); (true, T_RANAP_DL_GTP_PDU_SequenceNumber); (true, T_RANAP_UL_GTP_PDU_SequenceNumber); (true, T_RANAP_ProtocolExtensionContainer)]
    [].
(* src/ranap/RANAP_RAB-ReleasedItem.c:78-103 asn_DEF_RANAP_RAB_ReleasedItem *)
Definition T_RANAP_RAB_ReleasedItem : ty := TSeq true
    [(false, T_RANAP_RAB_ID); (true, T_RANAP_DataVolumeList); (true, T_RANAP_DL_GTP_PDU_SequenceNumber); (true, T_RANAP_UL_GTP_PDU_SequenceNumber); (true, T_RANAP_ProtocolExtensionContainer)]
    [].
(* src/ranap/RANAP_RAB-ReleasedList-IuRelComp.c:67-92 asn_DEF_raB_ReleasedList_IuRelComp_ies_2 *)
Definition T_RANAP_RAB_ReleasedList_IuRelComp__raB_ReleasedList_IuRelComp_ies_2 : ty := TSeqOf (Some (mkCon false 0 65535)) T_RANAP_IE.
(* src/ranap/RANAP_RAB-ReleasedList-IuRelComp.c:120-145 asn_DEF_RANAP_RAB_ReleasedList_IuRelComp *)
Definition T_RANAP_RAB_ReleasedList_IuRelComp : ty := TSeq true
    [(false, T_RANAP_RAB_ReleasedList_IuRelComp__raB_ReleasedList_IuRelComp_ies_2)]
    [].
(* src/ranap/RANAP_RAB-ReleasedList.c:67-92 asn_DEF_raB_ReleasedList_ies_2 *)
Definition T_RANAP_RAB_ReleasedList__raB_ReleasedList_ies_2 : ty := TSeqOf (Some (mkCon false 0 65535)) T_RANAP_IE.
(* src/ranap/RANAP_RAB-ReleasedList.c:120-145 asn_DEF_RANAP_RAB_ReleasedList *)
Definition T_RANAP_RAB_ReleasedList : ty := TSeq true
    [(false, T_RANAP_RAB_ReleasedList__raB_ReleasedList_ies_2)]
    [].
(* src/ranap/RANAP_RAB-RelocationReleaseItem.c:48-73 asn_DEF_RANAP_RAB_RelocationReleaseItem *)
Definition T_RANAP_RAB_RelocationReleaseItem : ty := TSeq true
    [(false, T_RANAP_RAB_ID); (true, T_RANAP_ProtocolExtensionContainer)]
    [].
(* src/ranap/RANAP_RAB-RelocationReleaseList.c:67-92 asn_DEF_raB_RelocationReleaseList_ies_2 *)
Definition T_RANAP_RAB_RelocationReleaseList__raB_RelocationReleaseList_ies_2 : ty := TSeqOf (Some (mkCon false 0 65535)) T_RANAP_IE.
(* src/ranap/RANAP_RAB-RelocationReleaseList.c:120-145 asn_DEF_RANAP_RAB_RelocationReleaseList *)
Definition T_RANAP_RAB_RelocationReleaseList : ty := TSeq true
    [(false, T_RANAP_RAB_RelocationReleaseList__raB_RelocationReleaseList_ies_2)]
    [].
(* src/ranap/RANAP_UserPlaneMode.c:143-167 asn_DEF_RANAP_UserPlaneMode *)
Definition T_RANAP_UserPlaneMode : ty := TEnum true [0; 1] [].
(* src/ranap/RANAP_UP-ModeVersions.c:147-171 asn_DEF_RANAP_UP_ModeVersions *)
Definition T_RANAP_UP_ModeVersions : ty := TBits (Some (mkCon false 16 16)).
(* src/ranap/RANAP_UserPlaneInformation.c:58-83 asn_DEF_RANAP_UserPlaneInformation *)
Definition T_RANAP_UserPlaneInformation : ty := TSeq true
    [(false, T_RANAP_UserPlaneMode); (false, T_RANAP_UP_ModeVersions); (true, T_RANAP_ProtocolExtensionContainer)]
    [].
(* src/ranap/RANAP_TNLInformationEnhRelInfoReq.c:58-83 asn_DEF_RANAP_TNLInformationEnhRelInfoReq *)
Definition T_RANAP_TNLInformationEnhRelInfoReq : ty := TSeq true
    [(false, T_RANAP_TransportLayerAddress); (false, T_RANAP_IuTransportAssociation); (true, T_RANAP_ProtocolExtensionContainer)]
    [].
(* src/ranap/RANAP_Service-Handover.c:145-169 asn_DEF_RANAP_Service_Handover *)
Definition T_RANAP_Service_Handover : ty := TEnum true [0; 1; 2] [].
(* src/ranap/RANAP_RAB-SetupItem-EnhRelocInfoReq.c:138-163 asn_DEF_RANAP_RAB_SetupItem_EnhRelocInfoReq *)
Definition T_RANAP_RAB_SetupItem_EnhRelocInfoReq : ty := TSeq true
    [(false, T_RANAP_RAB_ID); (false, T_RANAP_CN_DomainIndicator); (false, T_RANAP_RAB_Parameters); (true, T_RANAP_DataVolumeReportingIndication); (true, T_RANAP_PDP_TypeInformation); (false, T_RANAP_UserPlaneInformation); (true, T_RANAP_TNLInformationEnhRelInfoReq); (true, T_RANAP_TNLInformationEnhRelInfoReq); (true, T_RANAP_Service_Handover); (true, T_RANAP_Alt_RAB_Parameters); (true, T_RANAP_ProtocolExtensionContainer)]
    [].
(* src/ranap/RANAP_TNLInformationEnhRelInfoRes.c:58-83 asn_DEF_RANAP_TNLInformationEnhRelInfoRes *)
Definition T_RANAP_TNLInformationEnhRelInfoRes : ty := TSeq true
    [(false, T_RANAP_TransportLayerAddress); (false, T_RANAP_IuTransportAssociation); (true, T_RANAP_ProtocolExtensionContainer)]
    [].
(* src/ranap/RANAP_RAB-SetupItem-EnhRelocInfoRes.c:78-103 asn_DEF_RANAP_RAB_SetupItem_EnhRelocInfoRes *)
Definition T_RANAP_RAB_SetupItem_EnhRelocInfoRes : ty := TSeq true
    [(false, T_RANAP_CN_DomainIndicator); (false, T_RANAP_RAB_ID); (true, T_RANAP_TNLInformationEnhRelInfoRes); (true, T_RANAP_Ass_RAB_Parameters); (true, T_RANAP_ProtocolExtensionContainer)]
    [].
(* src/ranap/RANAP_RAB-SetupItem-EnhancedRelocCompleteReq.c:78-103 asn_DEF_RANAP_RAB_SetupItem_EnhancedRelocCompleteReq *)
Definition T_RANAP_RAB_SetupItem_EnhancedRelocCompleteReq : ty := TSeq true
    [(false, T_RANAP_RAB_ID); (true, T_RANAP_TransportLayerAddress); (true, T_RANAP_IuTransportAssociation); (true, T_RANAP_Ass_RAB_Parameters); (true, T_RANAP_ProtocolExtensionContainer)]
    [].
(* src/ranap/RANAP_RAB-ToBeReleasedList-EnhancedRelocCompleteRes.c:67-92 asn_DEF_raB_ToBeReleasedList_EnhancedRelocCompleteRes_ies_2 *)
Definition T_RANAP_RAB_ToBeReleasedList_EnhancedRelocCompleteRes__raB_ToBeReleasedList_EnhancedRelocCompleteRes_ies_2 : ty := TSeqOf (Some (mkCon false 0 65535)) T_RANAP_IE.
(* src/ranap/RANAP_RAB-ToBeReleasedList-EnhancedRelocCompleteRes.c:120-145 asn_DEF_RANAP_RAB_ToBeReleasedList_EnhancedRelocCompleteRes *)
Definition T_RANAP_RAB_ToBeReleasedList_EnhancedRelocCompleteRes : ty := TSeq true
    [(false, T_RANAP_RAB_ToBeReleasedList_EnhancedRelocCompleteRes__raB_ToBeReleasedList_EnhancedRelocCompleteRes_ies_2)]
    [].
(* src/ranap/RANAP_RAB-SetupItem-EnhancedRelocCompleteRes.c:98-123 asn_DEF_RANAP_RAB_SetupItem_EnhancedRelocCompleteRes *)
Definition T_RANAP_RAB_SetupItem_EnhancedRelocCompleteRes : ty := TSeq true
    [(false, T_RANAP_RAB_ID); (true, T_RANAP_RAB_Parameters); (false, T_RANAP_UserPlaneInformation); (true, T_RANAP_TransportLayerAddress); (true, T_RANAP_IuTransportAssociation); (true, T_RANAP_RAB_ToBeReleasedList_EnhancedRelocCompleteRes); (true, T_RANAP_ProtocolExtensionContainer)]
    [].
(* src/ranap/RANAP_RAB-SetupItem-RelocReq.c:128-153 asn_DEF_RANAP_RAB_SetupItem_RelocReq *)
Definition T_RANAP_RAB_SetupItem_RelocReq : ty := TSeq true
    [(false, T_RANAP_RAB_ID); (true, T_RANAP_NAS_SynchronisationIndicator); (false, T_RANAP_RAB_Parameters); (true, T_RANAP_DataVolumeReportingIndication); (true, T_RANAP_PDP_TypeInformation); (false, T_RANAP_UserPlaneInformation); (false, T_RANAP_TransportLayerAddress); (false, T_RANAP_IuTransportAssociation); (true, T_RANAP_Service_Handover); (true, T_RANAP_ProtocolExtensionContainer)]
    [].
(* src/ranap/RANAP_RAB-SetupItem-RelocReqAck.c:68-93 asn_DEF_RANAP_RAB_SetupItem_RelocReqAck *)
Definition T_RANAP_RAB_SetupItem_RelocReqAck : ty := TSeq true
    [(false, T_RANAP_RAB_ID); (true, T_RANAP_TransportLayerAddress); (true, T_RANAP_IuTransportAssociation); (true, T_RANAP_ProtocolExtensionContainer)]
    [].
(* src/ranap/RANAP_RAB-SetupList-EnhRelocInfoReq.c:67-92 asn_DEF_raB_SetupList_EnhRelocInfoReq_ies_2 *)
Definition T_RANAP_RAB_SetupList_EnhRelocInfoReq__raB_SetupList_EnhRelocInfoReq_ies_2 : ty := TSeqOf (Some (mkCon false 0 65535)) T_RANAP_IE.
(* src/ranap/RANAP_RAB-SetupList-EnhRelocInfoReq.c:120-145 asn_DEF_RANAP_RAB_SetupList_EnhRelocInfoReq *)
Definition T_RANAP_RAB_SetupList_EnhRelocInfoReq : ty := TSeq true
    [(false, T_RANAP_RAB_SetupList_EnhRelocInfoReq__raB_SetupList_EnhRelocInfoReq_ies_2)]
    [].
(* src/ranap/RANAP_RAB-SetupList-EnhRelocInfoRes.c:67-92 asn_DEF_raB_SetupList_EnhRelocInfoRes_ies_2 *)
Definition T_RANAP_RAB_SetupList_EnhRelocInfoRes__raB_SetupList_EnhRelocInfoRes_ies_2 : ty := TSeqOf (Some (mkCon false 0 65535)) T_RANAP_IE.
(* src/ranap/RANAP_RAB-SetupList-EnhRelocInfoRes.c:120-145 asn_DEF_RANAP_RAB_SetupList_EnhRelocInfoRes *)
Definition T_RANAP_RAB_SetupList_EnhRelocInfoRes : ty := TSeq true
    [(false, T_RANAP_RAB_SetupList_EnhRelocInfoRes__raB_SetupList_EnhRelocInfoRes_ies_2)]
    [].
(* src/ranap/RANAP_RAB-SetupList-EnhancedRelocCompleteReq.c:67-92 asn_DEF_raB_SetupList_EnhancedRelocCompleteReq_ies_2 *)
Definition T_RANAP_RAB_SetupList_EnhancedRelocCompleteReq__raB_SetupList_EnhancedRelocCompleteReq_ies_2 : ty := TSeqOf (Some (mkCon false 0 65535)) T_RANAP_IE.
(* src/ranap/RANAP_RAB-SetupList-EnhancedRelocCompleteReq.c:120-145 asn_DEF_RANAP_RAB_SetupList_EnhancedRelocCompleteReq *)
Definition T_RANAP_RAB_SetupList_EnhancedRelocCompleteReq : ty := TSeq true
    [(false, T_RANAP_RAB_SetupList_EnhancedRelocCompleteReq__raB_SetupList_EnhancedRelocCompleteReq_ies_2)]
    [].
(* src/ranap/RANAP_RAB-SetupList-EnhancedRelocCompleteRes.c:67-92 asn_DEF_raB_SetupList_EnhancedRelocCompleteRes_ies_2 *)
Definition T_RANAP_RAB_SetupList_EnhancedRelocCompleteRes__raB_SetupList_EnhancedRelocCompleteRes_ies_2 : ty := TSeqOf (Some (mkCon false 0 65535)) T_RANAP_IE.
(* src/ranap/RANAP_RAB-SetupList-EnhancedRelocCompleteRes.c:120-145 asn_DEF_RANAP_RAB_SetupList_EnhancedRelocCompleteRes *)
Definition T_RANAP_RAB_SetupList_EnhancedRelocCompleteRes : ty := TSeq true
    [(false, T_RANAP_RAB_SetupList_EnhancedRelocCompleteRes__raB_SetupList_EnhancedRelocCompleteRes_ies_2)]
    [].
(* src/ranap/RANAP_RAB-SetupList-RelocReq.c:67-92 asn_DEF_raB_SetupList_RelocReq_ies_2 *)
Definition T_RANAP_RAB_SetupList_RelocReq__raB_SetupList_RelocReq_ies_2 : ty := TSeqOf (Some (mkCon false 0 65535)) T_RANAP_IE.
(* src/ranap/RANAP_RAB-SetupList-RelocReq.c:120-145 asn_DEF_RANAP_RAB_SetupList_RelocReq *)
Definition T_RANAP_RAB_SetupList_RelocReq : ty := TSeq true
    [(false, T_RANAP_RAB_SetupList_RelocReq__raB_SetupList_RelocReq_ies_2)]
    [].
(* src/ranap/RANAP_RAB-SetupList-RelocReqAck.c:67-92 asn_DEF_raB_SetupList_RelocReqAck_ies_2 *)
Definition T_RANAP_RAB_SetupList_RelocReqAck__raB_SetupList_RelocReqAck_ies_2 : ty := TSeqOf (Some (mkCon false 0 65535)) T_RANAP_IE.
(* src/ranap/RANAP_RAB-SetupList-RelocReqAck.c:120-145 asn_DEF_RANAP_RAB_SetupList_RelocReqAck *)
Definition T_RANAP_RAB_SetupList_RelocReqAck : ty := TSeq true
    [(false, T_RANAP_RAB_SetupList_RelocReqAck__raB_SetupList_RelocReqAck_ies_2)]
    [].
(* src/ranap/RANAP_RAB-SetupOrModifiedItem.c:78-103 asn_DEF_RANAP_RAB_SetupOrModifiedItem *)
Definition T_RANAP_RAB_SetupOrModifiedItem : ty := TSeq true
    [(false, T_RANAP_RAB_ID); (true, T_RANAP_TransportLayerAddress); (true, T_RANAP_IuTransportAssociation); (true, T_RANAP_DataVolumeList); (true, T_RANAP_ProtocolExtensionContainer)]
    [].
(* src/ranap/RANAP_RAB-SetupOrModifiedList.c:67-92 asn_DEF_raB_SetupOrModifiedList_ies_2 *)
Definition T_RANAP_RAB_SetupOrModifiedList__raB_SetupOrModifiedList_ies_2 : ty := TSeqOf (Some (mkCon false 0 65535)) T_RANAP_IE.
(* src/ranap/RANAP_RAB-SetupOrModifiedList.c:120-145 asn_DEF_RANAP_RAB_SetupOrModifiedList *)
Definition T_RANAP_RAB_SetupOrModifiedList : ty := TSeq true
    [(false, T_RANAP_RAB_SetupOrModifiedList__raB_SetupOrModifiedList_ies_2)]
    [].
(* src/ranap/RANAP_TransportLayerInformation.c:58-83 asn_DEF_RANAP_TransportLayerInformation *)
Definition T_RANAP_TransportLayerInformation : ty := TSeq true
    [(false, T_RANAP_TransportLayerAddress); (false, T_RANAP_IuTransportAssociation); (true, T_RANAP_ProtocolExtensionContainer)]
    [].
(* src/ranap/RANAP_RAB-SetupOrModifyItemFirst.c:98-123 asn_DEF_RANAP_RAB_SetupOrModifyItemFirst *)
Definition T_RANAP_RAB_SetupOrModifyItemFirst : ty := TSeq true
    [(false, T_RANAP_RAB_ID); (true, T_RANAP_NAS_SynchronisationIndicator); (true, T_RANAP_RAB_Parameters); (true, T_RANAP_UserPlaneInformation); (true, T_RANAP_TransportLayerInformation); (true, T_RANAP_Service_Handover); (true, T_RANAP_ProtocolExtensionContainer)]
    [].
(* src/ranap/RANAP_RAB-SetupOrModifyItemSecond.c:98-123 asn_DEF_RANAP_RAB_SetupOrModifyItemSecond *)
Definition T_RANAP_RAB_SetupOrModifyItemSecond : ty := TSeq true
    [(true, T_RANAP_PDP_TypeInformation); (true, T_RANAP_DataVolumeReportingIndication); (true, T_RANAP_DL_GTP_PDU_SequenceNumber); (true, T_RANAP_UL_GTP_PDU_SequenceNumber); (true, T_RANAP_DL_N_PDU_SequenceNumber); (true, T_RANAP_UL_N_PDU_SequenceNumber); (true, T_RANAP_ProtocolExtensionContainer)]
    [].
(* src/ranap/RANAP_RAB-SetupOrModifyList.c:136-158 asn_DEF_RANAP_RAB_SetupOrModifyList *)
Definition T_RANAP_RAB_SetupOrModifyList : ty := T_RANAP_RAB_IE_ContainerPairList.
(* src/ranap/RANAP_RAB-ToBeReleasedItem-EnhancedRelocCompleteRes.c:58-83 asn_DEF_RANAP_RAB_ToBeReleasedItem_EnhancedRelocCompleteRes *)
Definition T_RANAP_RAB_ToBeReleasedItem_EnhancedRelocCompleteRes : ty := TSeq true
    [(false, T_RANAP_RAB_ID); (false, T_RANAP_Cause); (true, T_RANAP_ProtocolExtensionContainer)]
    [].
(* src/ranap/RANAP_USCH-ID.c:141-165 asn_DEF_RANAP_USCH_ID *)
Definition T_RANAP_USCH_ID : ty := TInt (Some (mkCon false 0 255)).
(* src/ranap/RANAP_TrCH-ID.c:68-93 asn_DEF_RANAP_TrCH_ID *)
Definition T_RANAP_TrCH_ID : ty := TSeq true
    [(true, T_RANAP_DCH_ID); (true, T_RANAP_DSCH_ID); (true, T_RANAP_USCH_ID); (true, T_RANAP_IE_Extensions)]
    [].
(* src/ranap/RANAP_TrCH-ID-List.c:34-59 asn_DEF_RANAP_TrCH_ID_List *)
Definition T_RANAP_TrCH_ID_List : ty := TSeqOf (Some (mkCon false 1 7)) T_RANAP_TrCH_ID.
(* src/ranap/RANAP_RAB-TrCH-MappingItem.c:58-83 asn_DEF_RANAP_RAB_TrCH_MappingItem *)
Definition T_RANAP_RAB_TrCH_MappingItem : ty := TSeq true
    [(false, T_RANAP_RAB_ID); (false, T_RANAP_TrCH_ID_List); (true, T_RANAP_IE_Extensions)]
    [].
(* src/ranap/RANAP_RAB-TrCH-Mapping.c:34-59 asn_DEF_RANAP_RAB_TrCH_Mapping *)
Definition T_RANAP_RAB_TrCH_Mapping : ty := TSeqOf (Some (mkCon false 1 256)) T_RANAP_RAB_TrCH_MappingItem.
(* src/ranap/RANAP_RABDataVolumeReport-Value.c:58-83 asn_DEF_RANAP_RABDataVolumeReport_Value *)
Definition T_RANAP_RABDataVolumeReport_Value : ty := TSeq true
    [(false, T_RANAP_UnsuccessfullyTransmittedDataVolume); (true, T_RANAP_DataVolumeReference); (true, T_RANAP_IE_Extensions)]
    [].
(* src/ranap/RANAP_RABDataVolumeReport.c:34-59 asn_DEF_RANAP_RABDataVolumeReport *)
Definition T_RANAP_RABDataVolumeReport : ty := TSeqOf (Some (mkCon false 1 2)) T_RANAP_RABDataVolumeReport_Value.
(* src/ranap/RANAP_UPInitialisationFrame.c:119-143 asn_DEF_RANAP_UPInitialisationFrame *)
Definition T_RANAP_UPInitialisationFrame : ty := TOcts None.
(* src/ranap/RANAP_UPInformation.c:98-123 asn_DEF_RANAP_UPInformation *)
Definition T_RANAP_UPInformation : ty := TSeq true
    [(false, T_RANAP_FrameSequenceNumber); (false, T_RANAP_FrameSequenceNumber); (false, T_RANAP_PDUType14FrameSequenceNumber); (false, T_RANAP_PDUType14FrameSequenceNumber); (false, T_RANAP_DataPDUType); (false, T_RANAP_UPInitialisationFrame); (true, T_RANAP_IE_Extensions)]
    [].
(* src/ranap/RANAP_RABParametersList-Value.c:78-103 asn_DEF_RANAP_RABParametersList_Value *)
Definition T_RANAP_RABParametersList_Value : ty := TSeq true
    [(false, T_RANAP_RAB_ID); (false, T_RANAP_CN_DomainIndicator); (true, T_RANAP_RABDataVolumeReport); (true, T_RANAP_UPInformation); (true, T_RANAP_IE_Extensions)]
    [].
(* src/ranap/RANAP_RABParametersList.c:34-59 asn_DEF_RANAP_RABParametersList *)
Definition T_RANAP_RABParametersList : ty := TSeqOf (Some (mkCon false 1 256)) T_RANAP_RABParametersList_Value.
(* src/ranap/RANAP_RABs-ContextFailedtoTransferItem.c:58-83 asn_DEF_RANAP_RABs_ContextFailedtoTransferItem *)
Definition T_RANAP_RABs_ContextFailedtoTransferItem : ty := TSeq true
    [(false, T_RANAP_RAB_ID); (false, T_RANAP_Cause); (true, T_RANAP_ProtocolExtensionContainer)]
    [].
(* src/ranap/RANAP_RABs-ContextFailedtoTransferList.c:67-92 asn_DEF_raBs_ContextFailedtoTransferList_ies_2 *)
Definition T_RANAP_RABs_ContextFailedtoTransferList__raBs_ContextFailedtoTransferList_ies_2 : ty := TSeqOf (Some (mkCon false 0 65535)) T_RANAP_IE.
(* src/ranap/RANAP_RABs-ContextFailedtoTransferList.c:120-145 asn_DEF_RANAP_RABs_ContextFailedtoTransferList *)
Definition T_RANAP_RABs_ContextFailedtoTransferList : ty := TSeq true
    [(false, T_RANAP_RABs_ContextFailedtoTransferList__raBs_ContextFailedtoTransferList_ies_2)]
    [].
(* src/ranap/RANAP_RABs-failed-to-reportItem.c:58-83 asn_DEF_RANAP_RABs_failed_to_reportItem *)
Definition T_RANAP_RABs_failed_to_reportItem : ty := TSeq true
    [(false, T_RANAP_RAB_ID); (false, T_RANAP_Cause); (true, T_RANAP_ProtocolExtensionContainer)]
    [].
(* src/ranap/RANAP_RABs-failed-to-reportList.c:67-92 asn_DEF_raBs_failed_to_reportList_ies_2 *)
Definition T_RANAP_RABs_failed_to_reportList__raBs_failed_to_reportList_ies_2 : ty := TSeqOf (Some (mkCon false 0 65535)) T_RANAP_IE.
(* src/ranap/RANAP_RABs-failed-to-reportList.c:120-145 asn_DEF_RANAP_RABs_failed_to_reportList *)
Definition T_RANAP_RABs_failed_to_reportList : ty := TSeq true
    [(false, T_RANAP_RABs_failed_to_reportList__raBs_failed_to_reportList_ies_2)]
    [].
(* src/ranap/RANAP_RAListofIdleModeUEs.c:150-174 asn_DEF_emptyFullRAListofIdleModeUEs_3 *)
Definition T_RANAP_RAListofIdleModeUEs__emptyFullRAListofIdleModeUEs_3 : ty := TEnum true [0; 1] [].
(* src/ranap/RANAP_RAListofIdleModeUEs.c:210-233 asn_DEF_RANAP_RAListofIdleModeUEs *)
Definition T_RANAP_RAListofIdleModeUEs : ty := TChoice true
    [T_RANAP_NotEmptyRAListofIdleModeUEs; T_RANAP_RAListofIdleModeUEs__emptyFullRAListofIdleModeUEs_3]
    [].
(* src/ranap/RANAP_RANAP-EnhancedRelocationInformationRequest.c:67-92 asn_DEF_ranaP_EnhancedRelocationInformationRequest_ies_2 *)
Definition T_RANAP_RANAP_EnhancedRelocationInformationRequest__ranaP_EnhancedRelocationInformationRequest_ies_2 : ty := TSeqOf (Some (mkCon false 0 65535)) T_RANAP_IE.
(* src/ranap/RANAP_RANAP-EnhancedRelocationInformationRequest.c:120-145 asn_DEF_RANAP_RANAP_EnhancedRelocationInformationRequest *)
Definition T_RANAP_RANAP_EnhancedRelocationInformationRequest : ty := TSeq true
    [(false, T_RANAP_RANAP_EnhancedRelocationInformationRequest__ranaP_EnhancedRelocationInformationRequest_ies_2)]
    [].
(* src/ranap/RANAP_RANAP-EnhancedRelocationInformationResponse.c:67-92 asn_DEF_ranaP_EnhancedRelocationInformationResponse_ies_2 *)
Definition T_RANAP_RANAP_EnhancedRelocationInformationResponse__ranaP_EnhancedRelocationInformationResponse_ies_2 : ty := TSeqOf (Some (mkCon false 0 65535)) T_RANAP_IE.
(* src/ranap/RANAP_RANAP-EnhancedRelocationInformationResponse.c:120-145 asn_DEF_RANAP_RANAP_EnhancedRelocationInformationResponse *)
Definition T_RANAP_RANAP_EnhancedRelocationInformationResponse : ty := TSeq true
    [(false, T_RANAP_RANAP_EnhancedRelocationInformationResponse__ranaP_EnhancedRelocationInformationResponse_ies_2)]
    [].
(* src/ranap/RANAP_SuccessfulOutcome.c:56-81 asn_DEF_RANAP_SuccessfulOutcome *)
Definition T_RANAP_SuccessfulOutcome : ty := TSeq false
    [(false, T_RANAP_ProcedureCode); (false, T_RANAP_Criticality); (false, (TOcts None))]
    [].
(* src/ranap/RANAP_UnsuccessfulOutcome.c:56-81 asn_DEF_RANAP_UnsuccessfulOutcome *)
Definition T_RANAP_UnsuccessfulOutcome : ty := TSeq false
    [(false, T_RANAP_ProcedureCode); (false, T_RANAP_Criticality); (false, (TOcts None))]
    [].
(* src/ranap/RANAP_RANAP-PDU.c:69-92 asn_DEF_RANAP_RANAP_PDU *)
Definition T_RANAP_RANAP_PDU : ty := TChoice true
    [T_RANAP_InitiatingMessage; T_RANAP_SuccessfulOutcome; T_RANAP_UnsuccessfulOutcome; T_RANAP_Outcome]
    [].
(* src/ranap/RANAP_RANAP-RelocationInformation.c:67-92 asn_DEF_ranaP_RelocationInformation_ies_2 *)
Definition T_RANAP_RANAP_RelocationInformation__ranaP_RelocationInformation_ies_2 : ty := TSeqOf (Some (mkCon false 0 65535)) T_RANAP_IE.
(* src/ranap/RANAP_RANAP-RelocationInformation.c:120-145 asn_DEF_RANAP_RANAP_RelocationInformation *)
Definition T_RANAP_RANAP_RelocationInformation : ty := TSeq true
    [(false, T_RANAP_RANAP_RelocationInformation__ranaP_RelocationInformation_ies_2)]
    [].
(* src/ranap/RANAP_RAT-Type.c:143-167 asn_DEF_RANAP_RAT_Type *)
Definition T_RANAP_RAT_Type : ty := TEnum true [0; 1] [].
(* src/ranap/RANAP_UE-ID.c:59-82 asn_DEF_RANAP_UE_ID *)
Definition T_RANAP_UE_ID : ty := TChoice true
    [T_RANAP_IMSI; T_RANAP_IMEI]
    [T_RANAP_IMEISV].
(* src/ranap/RANAP_TraceRecordingSessionReference.c:141-165 asn_DEF_RANAP_TraceRecordingSessionReference *)
Definition T_RANAP_TraceRecordingSessionReference : ty := TInt (Some (mkCon false 0 65535)).
(* src/ranap/RANAP_TraceDepth.c:145-169 asn_DEF_RANAP_TraceDepth *)
Definition T_RANAP_TraceDepth : ty := TEnum true [0; 1; 2] [].
(* src/ranap/RANAP_TracePropagationParameters.c:68-93 asn_DEF_RANAP_TracePropagationParameters *)
Definition T_RANAP_TracePropagationParameters : ty := TSeq true
    [(false, T_RANAP_TraceRecordingSessionReference); (false, T_RANAP_TraceDepth); (true, T_RANAP_ListOfInterfacesToTrace); (true, T_RANAP_IE_Extensions)]
    [].
(* src/ranap/RANAP_TraceInformation.c:68-93 asn_DEF_RANAP_TraceInformation *)
Definition T_RANAP_TraceInformation : ty := TSeq true
    [(false, T_RANAP_TraceReference); (false, T_RANAP_UE_ID); (true, T_RANAP_TracePropagationParameters); (true, T_RANAP_IE_Extensions)]
    [].
(* src/ranap/RANAP_RNSAPRelocationParameters.c:78-103 asn_DEF_RANAP_RNSAPRelocationParameters *)
Definition T_RANAP_RNSAPRelocationParameters : ty := TSeq true
    [(true, T_RANAP_RABParametersList); (true, T_RANAP_LocationReportingTransferInformation); (true, T_RANAP_TraceInformation); (true, T_RANAP_SAI); (true, T_RANAP_IE_Extensions)]
    [].
(* src/ranap/RANAP_RRC-Container.c:119-143 asn_DEF_RANAP_RRC_Container *)
Definition T_RANAP_RRC_Container : ty := TOcts None.
(* src/ranap/RANAP_RSRQ-Extension.c:141-165 asn_DEF_RANAP_RSRQ_Extension *)
Definition T_RANAP_RSRQ_Extension : ty := TInt (Some (mkCon true (-30) 46)).
(* src/ranap/RANAP_RSRQ-Type.c:46-71 asn_DEF_RANAP_RSRQ_Type *)
Definition T_RANAP_RSRQ_Type : ty := TSeq false
    [(false, TBool); (false, TBool)]
    [].
(* src/ranap/RANAP_RSRVCC-HO-Indication.c:141-165 asn_DEF_RANAP_RSRVCC_HO_Indication *)
Definition T_RANAP_RSRVCC_HO_Indication : ty := TEnum true [0] [].
(* src/ranap/RANAP_RSRVCC-Information.c:125-150 asn_DEF_RANAP_RSRVCC_Information *)
Definition T_RANAP_RSRVCC_Information : ty := TSeq true
    [(false, (TBits (Some (mkCon false 128 128)))); (false, (TOcts (Some (mkCon false 1 32)))); (true, T_RANAP_IE_Extensions)]
    [].
(* src/ranap/RANAP_RSRVCC-Operation-Possible.c:141-165 asn_DEF_RANAP_RSRVCC_Operation_Possible *)
Definition T_RANAP_RSRVCC_Operation_Possible : ty := TEnum true [0] [].
(* src/ranap/RANAP_RateControlAllowed.c:141-165 asn_DEF_RANAP_RateControlAllowed *)
Definition T_RANAP_RateControlAllowed : ty := TEnum false [0; 1] [].
(* src/ranap/RANAP_RedirectAttemptFlag.c:119-143 asn_DEF_RANAP_RedirectAttemptFlag *)
Definition T_RANAP_RedirectAttemptFlag : ty := TNull.
(* src/ranap/RANAP_RedirectionCompleted.c:141-165 asn_DEF_RANAP_RedirectionCompleted *)
Definition T_RANAP_RedirectionCompleted : ty := TEnum true [0] [].
(* src/ranap/RANAP_RedirectionIndication.c:67-92 asn_DEF_redirectionIndication_ies_2 *)
Definition T_RANAP_RedirectionIndication__redirectionIndication_ies_2 : ty := TSeqOf (Some (mkCon false 0 65535)) T_RANAP_IE.
(* src/ranap/RANAP_RedirectionIndication.c:120-145 asn_DEF_RANAP_RedirectionIndication *)
Definition T_RANAP_RedirectionIndication : ty := TSeq true
    [(false, T_RANAP_RedirectionIndication__redirectionIndication_ies_2)]
    [].
(* src/ranap/RANAP_RejectCauseValue.c:155-179 asn_DEF_RANAP_RejectCauseValue *)
Definition T_RANAP_RejectCauseValue : ty := TEnum true [0; 1; 2; 3; 4; 5] [6; 7].
(* src/ranap/RANAP_RelocationCancel.c:67-92 asn_DEF_relocationCancel_ies_2 *)
Definition T_RANAP_RelocationCancel__relocationCancel_ies_2 : ty := TSeqOf (Some (mkCon false 0 65535)) T_RANAP_IE.
(* src/ranap/RANAP_RelocationCancel.c:120-145 asn_DEF_RANAP_RelocationCancel *)
Definition T_RANAP_RelocationCancel : ty := TSeq true
    [(false, T_RANAP_RelocationCancel__relocationCancel_ies_2)]
    [].
(* src/ranap/RANAP_RelocationCancelAcknowledge.c:67-92 asn_DEF_relocationCancelAcknowledge_ies_2 *)
Definition T_RANAP_RelocationCancelAcknowledge__relocationCancelAcknowledge_ies_2 : ty := TSeqOf (Some (mkCon false 0 65535)) T_RANAP_IE.
(* src/ranap/RANAP_RelocationCancelAcknowledge.c:120-145 asn_DEF_RANAP_RelocationCancelAcknowledge *)
Definition T_RANAP_RelocationCancelAcknowledge : ty := TSeq true
    [(false, T_RANAP_RelocationCancelAcknowledge__relocationCancelAcknowledge_ies_2)]
    [].
(* src/ranap/RANAP_RelocationCommand.c:67-92 asn_DEF_relocationCommand_ies_2 *)
Definition T_RANAP_RelocationCommand__relocationCommand_ies_2 : ty := TSeqOf (Some (mkCon false 0 65535)) T_RANAP_IE.
(* src/ranap/RANAP_RelocationCommand.c:120-145 asn_DEF_RANAP_RelocationCommand *)
Definition T_RANAP_RelocationCommand : ty := TSeq true
    [(false, T_RANAP_RelocationCommand__relocationCommand_ies_2)]
    [].
(* src/ranap/RANAP_RelocationComplete.c:67-92 asn_DEF_relocationComplete_ies_2 *)
Definition T_RANAP_RelocationComplete__relocationComplete_ies_2 : ty := TSeqOf (Some (mkCon false 0 65535)) T_RANAP_IE.
(* src/ranap/RANAP_RelocationComplete.c:120-145 asn_DEF_RANAP_RelocationComplete *)
Definition T_RANAP_RelocationComplete : ty := TSeq true
    [(false, T_RANAP_RelocationComplete__relocationComplete_ies_2)]
    [].
(* src/ranap/RANAP_RelocationDetect.c:67-92 asn_DEF_relocationDetect_ies_2 *)
Definition T_RANAP_RelocationDetect__relocationDetect_ies_2 : ty := TSeqOf (Some (mkCon false 0 65535)) T_RANAP_IE.
(* src/ranap/RANAP_RelocationDetect.c:120-145 asn_DEF_RANAP_RelocationDetect *)
Definition T_RANAP_RelocationDetect : ty := TSeq true
    [(false, T_RANAP_RelocationDetect__relocationDetect_ies_2)]
    [].
(* src/ranap/RANAP_RelocationFailure.c:67-92 asn_DEF_relocationFailure_ies_2 *)
Definition T_RANAP_RelocationFailure__relocationFailure_ies_2 : ty := TSeqOf (Some (mkCon false 0 65535)) T_RANAP_IE.
(* src/ranap/RANAP_RelocationFailure.c:120-145 asn_DEF_RANAP_RelocationFailure *)
Definition T_RANAP_RelocationFailure : ty := TSeq true
    [(false, T_RANAP_RelocationFailure__relocationFailure_ies_2)]
    [].
(* src/ranap/RANAP_RelocationPreparationFailure.c:67-92 asn_DEF_relocationPreparationFailure_ies_2 *)
Definition T_RANAP_RelocationPreparationFailure__relocationPreparationFailure_ies_2 : ty := TSeqOf (Some (mkCon false 0 65535)) T_RANAP_IE.
(* src/ranap/RANAP_RelocationPreparationFailure.c:120-145 asn_DEF_RANAP_RelocationPreparationFailure *)
Definition T_RANAP_RelocationPreparationFailure : ty := TSeq true
    [(false, T_RANAP_RelocationPreparationFailure__relocationPreparationFailure_ies_2)]
    [].
(* src/ranap/RANAP_RelocationRequest.c:67-92 asn_DEF_relocationRequest_ies_2 *)
Definition T_RANAP_RelocationRequest__relocationRequest_ies_2 : ty := TSeqOf (Some (mkCon false 0 65535)) T_RANAP_IE.
(* src/ranap/RANAP_RelocationRequest.c:120-145 asn_DEF_RANAP_RelocationRequest *)
Definition T_RANAP_RelocationRequest : ty := TSeq true
    [(false, T_RANAP_RelocationRequest__relocationRequest_ies_2)]
    [].
(* src/ranap/RANAP_RelocationRequestAcknowledge.c:67-92 asn_DEF_relocationRequestAcknowledge_ies_2 *)
Definition T_RANAP_RelocationRequestAcknowledge__relocationRequestAcknowledge_ies_2 : ty := TSeqOf (Some (mkCon false 0 65535)) T_RANAP_IE.
(* src/ranap/RANAP_RelocationRequestAcknowledge.c:120-145 asn_DEF_RANAP_RelocationRequestAcknowledge *)
Definition T_RANAP_RelocationRequestAcknowledge : ty := TSeq true
    [(false, T_RANAP_RelocationRequestAcknowledge__relocationRequestAcknowledge_ies_2)]
    [].
(* src/ranap/RANAP_RelocationRequired.c:67-92 asn_DEF_relocationRequired_ies_2 *)
Definition T_RANAP_RelocationRequired__relocationRequired_ies_2 : ty := TSeqOf (Some (mkCon false 0 65535)) T_RANAP_IE.
(* src/ranap/RANAP_RelocationRequired.c:120-145 asn_DEF_RANAP_RelocationRequired *)
Definition T_RANAP_RelocationRequired : ty := TSeq true
    [(false, T_RANAP_RelocationRequired__relocationRequired_ies_2)]
    [].
(* src/ranap/RANAP_RelocationType.c:143-167 asn_DEF_RANAP_RelocationType *)
Definition T_RANAP_RelocationType : ty := TEnum true [0; 1] [].
(* src/ranap/RANAP_ReportArea.c:143-167 asn_DEF_RANAP_ReportArea *)
Definition T_RANAP_ReportArea : ty := TEnum true [0; 1] [].
(* src/ranap/RANAP_RequestType.c:88-113 asn_DEF_RANAP_RequestType *)
Definition T_RANAP_RequestType : ty := TSeq true
    [(false, T_RANAP_Event); (false, T_RANAP_ReportArea); (true, (TInt (Some (mkCon false 0 127))))]
    [].
(* src/ranap/RANAP_Requested-RAB-Parameter-ExtendedGuaranteedBitrateList.c:34-59 asn_DEF_RANAP_Requested_RAB_Parameter_ExtendedGuaranteedBitrateList *)
Definition T_RANAP_Requested_RAB_Parameter_ExtendedGuaranteedBitrateList : ty := TSeqOf (Some (mkCon false 1 2)) T_RANAP_ExtendedGuaranteedBitrate.
(* src/ranap/RANAP_Requested-RAB-Parameter-ExtendedMaxBitrateList.c:34-59 asn_DEF_RANAP_Requested_RAB_Parameter_ExtendedMaxBitrateList *)
Definition T_RANAP_Requested_RAB_Parameter_ExtendedMaxBitrateList : ty := TSeqOf (Some (mkCon false 1 2)) T_RANAP_ExtendedMaxBitrate.
(* src/ranap/RANAP_RequestedGANSSAssistanceData.c:142-166 asn_DEF_RANAP_RequestedGANSSAssistanceData *)
Definition T_RANAP_RequestedGANSSAssistanceData : ty := TOcts (Some (mkCon false 1 201)).
(* src/ranap/RANAP_Reset.c:67-92 asn_DEF_reset_ies_2 *)
Definition T_RANAP_Reset__reset_ies_2 : ty := TSeqOf (Some (mkCon false 0 65535)) T_RANAP_IE.
(* src/ranap/RANAP_Reset.c:120-145 asn_DEF_RANAP_Reset *)
Definition T_RANAP_Reset : ty := TSeq true
    [(false, T_RANAP_Reset__reset_ies_2)]
    [].
(* src/ranap/RANAP_ResetAcknowledge.c:67-92 asn_DEF_resetAcknowledge_ies_2 *)
Definition T_RANAP_ResetAcknowledge__resetAcknowledge_ies_2 : ty := TSeqOf (Some (mkCon false 0 65535)) T_RANAP_IE.
(* src/ranap/RANAP_ResetAcknowledge.c:120-145 asn_DEF_RANAP_ResetAcknowledge *)
Definition T_RANAP_ResetAcknowledge : ty := TSeq true
    [(false, T_RANAP_ResetAcknowledge__resetAcknowledge_ies_2)]
    [].
(* src/ranap/RANAP_ResetResource.c:67-92 asn_DEF_resetResource_ies_2 *)
Definition T_RANAP_ResetResource__resetResource_ies_2 : ty := TSeqOf (Some (mkCon false 0 65535)) T_RANAP_IE.
(* src/ranap/RANAP_ResetResource.c:120-145 asn_DEF_RANAP_ResetResource *)
Definition T_RANAP_ResetResource : ty := TSeq true
    [(false, T_RANAP_ResetResource__resetResource_ies_2)]
    [].
(* src/ranap/RANAP_ResetResourceAckItem.c:48-73 asn_DEF_RANAP_ResetResourceAckItem *)
Definition T_RANAP_ResetResourceAckItem : ty := TSeq true
    [(false, T_RANAP_IuSignallingConnectionIdentifier); (true, T_RANAP_ProtocolExtensionContainer)]
    [].
(* src/ranap/RANAP_ResetResourceAckList.c:68-93 asn_DEF_resetResourceAckList_ies_2 *)
Definition T_RANAP_ResetResourceAckList__resetResourceAckList_ies_2 : ty := TSeqOf (Some (mkCon false 0 65535)) T_RANAP_IE.
(* src/ranap/RANAP_ResetResourceAckList.c:121-146 asn_DEF_RANAP_ResetResourceAckList *)
Definition T_RANAP_ResetResourceAckList : ty := TSeq true
    [(false, T_RANAP_ResetResourceAckList__resetResourceAckList_ies_2)]
    [].
(* src/ranap/RANAP_ResetResourceAcknowledge.c:67-92 asn_DEF_resetResourceAcknowledge_ies_2 *)
Definition T_RANAP_ResetResourceAcknowledge__resetResourceAcknowledge_ies_2 : ty := TSeqOf (Some (mkCon false 0 65535)) T_RANAP_IE.
(* src/ranap/RANAP_ResetResourceAcknowledge.c:120-145 asn_DEF_RANAP_ResetResourceAcknowledge *)
Definition T_RANAP_ResetResourceAcknowledge : ty := TSeq true
    [(false, T_RANAP_ResetResourceAcknowledge__resetResourceAcknowledge_ies_2)]
    [].
(* src/ranap/RANAP_ResetResourceItem.c:48-73 asn_DEF_RANAP_ResetResourceItem *)
Definition T_RANAP_ResetResourceItem : ty := TSeq true
    [(false, T_RANAP_IuSignallingConnectionIdentifier); (true, T_RANAP_ProtocolExtensionContainer)]
    [].
(* src/ranap/RANAP_ResetResourceList.c:68-93 asn_DEF_resetResourceList_ies_2 *)
Definition T_RANAP_ResetResourceList__resetResourceList_ies_2 : ty := TSeqOf (Some (mkCon false 0 65535)) T_RANAP_IE.
(* src/ranap/RANAP_ResetResourceList.c:121-146 asn_DEF_RANAP_ResetResourceList *)
Definition T_RANAP_ResetResourceList : ty := TSeq true
    [(false, T_RANAP_ResetResourceList__resetResourceList_ies_2)]
    [].
(* src/ranap/RANAP_SNA-Access-Information.c:48-73 asn_DEF_RANAP_SNA_Access_Information *)
Definition T_RANAP_SNA_Access_Information : ty := TSeq true
    [(false, T_RANAP_AuthorisedPLMNs); (true, T_RANAP_IE_Extensions)]
    [].
(* src/ranap/RANAP_SRB-ID.c:141-165 asn_DEF_RANAP_SRB_ID *)
Definition T_RANAP_SRB_ID : ty := TInt (Some (mkCon false 1 32)).
(* src/ranap/RANAP_SRB-TrCH-MappingItem.c:58-83 asn_DEF_RANAP_SRB_TrCH_MappingItem *)
Definition T_RANAP_SRB_TrCH_MappingItem : ty := TSeq true
    [(false, T_RANAP_SRB_ID); (false, T_RANAP_TrCH_ID); (true, T_RANAP_IE_Extensions)]
    [].
(* src/ranap/RANAP_SRB-TrCH-Mapping.c:34-59 asn_DEF_RANAP_SRB_TrCH_Mapping *)
Definition T_RANAP_SRB_TrCH_Mapping : ty := TSeqOf (Some (mkCon false 1 8)) T_RANAP_SRB_TrCH_MappingItem.
(* src/ranap/RANAP_SRNS-ContextRequest.c:67-92 asn_DEF_srnS_ContextRequest_ies_2 *)
Definition T_RANAP_SRNS_ContextRequest__srnS_ContextRequest_ies_2 : ty := TSeqOf (Some (mkCon false 0 65535)) T_RANAP_IE.
(* src/ranap/RANAP_SRNS-ContextRequest.c:120-145 asn_DEF_RANAP_SRNS_ContextRequest *)
Definition T_RANAP_SRNS_ContextRequest : ty := TSeq true
    [(false, T_RANAP_SRNS_ContextRequest__srnS_ContextRequest_ies_2)]
    [].
(* src/ranap/RANAP_SRNS-ContextResponse.c:67-92 asn_DEF_srnS_ContextResponse_ies_2 *)
Definition T_RANAP_SRNS_ContextResponse__srnS_ContextResponse_ies_2 : ty := TSeqOf (Some (mkCon false 0 65535)) T_RANAP_IE.
(* src/ranap/RANAP_SRNS-ContextResponse.c:120-145 asn_DEF_RANAP_SRNS_ContextResponse *)
Definition T_RANAP_SRNS_ContextResponse : ty := TSeq true
    [(false, T_RANAP_SRNS_ContextResponse__srnS_ContextResponse_ies_2)]
    [].
(* src/ranap/RANAP_SRNS-DataForwardCommand.c:67-92 asn_DEF_srnS_DataForwardCommand_ies_2 *)
Definition T_RANAP_SRNS_DataForwardCommand__srnS_DataForwardCommand_ies_2 : ty := TSeqOf (Some (mkCon false 0 65535)) T_RANAP_IE.
(* src/ranap/RANAP_SRNS-DataForwardCommand.c:120-145 asn_DEF_RANAP_SRNS_DataForwardCommand *)
Definition T_RANAP_SRNS_DataForwardCommand : ty := TSeq true
    [(false, T_RANAP_SRNS_DataForwardCommand__srnS_DataForwardCommand_ies_2)]
    [].
(* src/ranap/RANAP_SRVCC-CSKeysRequest.c:67-92 asn_DEF_srvcC_CSKeysRequest_ies_2 *)
Definition T_RANAP_SRVCC_CSKeysRequest__srvcC_CSKeysRequest_ies_2 : ty := TSeqOf (Some (mkCon false 0 65535)) T_RANAP_IE.
(* src/ranap/RANAP_SRVCC-CSKeysRequest.c:120-145 asn_DEF_RANAP_SRVCC_CSKeysRequest *)
Definition T_RANAP_SRVCC_CSKeysRequest : ty := TSeq true
    [(false, T_RANAP_SRVCC_CSKeysRequest__srvcC_CSKeysRequest_ies_2)]
    [].
(* src/ranap/RANAP_SRVCC-CSKeysResponse.c:67-92 asn_DEF_srvcC_CSKeysResponse_ies_2 *)
Definition T_RANAP_SRVCC_CSKeysResponse__srvcC_CSKeysResponse_ies_2 : ty := TSeqOf (Some (mkCon false 0 65535)) T_RANAP_IE.
(* src/ranap/RANAP_SRVCC-CSKeysResponse.c:120-145 asn_DEF_RANAP_SRVCC_CSKeysResponse *)
Definition T_RANAP_SRVCC_CSKeysResponse : ty := TSeq true
    [(false, T_RANAP_SRVCC_CSKeysResponse__srvcC_CSKeysResponse_ies_2)]
    [].
(* src/ranap/RANAP_SRVCC-HO-Indication.c:143-167 asn_DEF_RANAP_SRVCC_HO_Indication *)
Definition T_RANAP_SRVCC_HO_Indication : ty := TEnum true [0; 1] [].
(* src/ranap/RANAP_SRVCC-Information.c:84-109 asn_DEF_RANAP_SRVCC_Information *)
Definition T_RANAP_SRVCC_Information : ty := TSeq true
    [(false, (TBits (Some (mkCon false 128 128)))); (true, T_RANAP_IE_Extensions)]
    [].
(* src/ranap/RANAP_SRVCC-Operation-Possible.c:141-165 asn_DEF_RANAP_SRVCC_Operation_Possible *)
Definition T_RANAP_SRVCC_Operation_Possible : ty := TEnum true [0] [].
(* src/ranap/RANAP_SecurityModeCommand.c:67-92 asn_DEF_securityModeCommand_ies_2 *)
Definition T_RANAP_SecurityModeCommand__securityModeCommand_ies_2 : ty := TSeqOf (Some (mkCon false 0 65535)) T_RANAP_IE.
(* src/ranap/RANAP_SecurityModeCommand.c:120-145 asn_DEF_RANAP_SecurityModeCommand *)
Definition T_RANAP_SecurityModeCommand : ty := TSeq true
    [(false, T_RANAP_SecurityModeCommand__securityModeCommand_ies_2)]
    [].
(* src/ranap/RANAP_SecurityModeComplete.c:67-92 asn_DEF_securityModeComplete_ies_2 *)
Definition T_RANAP_SecurityModeComplete__securityModeComplete_ies_2 : ty := TSeqOf (Some (mkCon false 0 65535)) T_RANAP_IE.
(* src/ranap/RANAP_SecurityModeComplete.c:120-145 asn_DEF_RANAP_SecurityModeComplete *)
Definition T_RANAP_SecurityModeComplete : ty := TSeq true
    [(false, T_RANAP_SecurityModeComplete__securityModeComplete_ies_2)]
    [].
(* src/ranap/RANAP_SecurityModeReject.c:67-92 asn_DEF_securityModeReject_ies_2 *)
Definition T_RANAP_SecurityModeReject__securityModeReject_ies_2 : ty := TSeqOf (Some (mkCon false 0 65535)) T_RANAP_IE.
(* src/ranap/RANAP_SecurityModeReject.c:120-145 asn_DEF_RANAP_SecurityModeReject *)
Definition T_RANAP_SecurityModeReject : ty := TSeq true
    [(false, T_RANAP_SecurityModeReject__securityModeReject_ies_2)]
    [].
(* src/ranap/RANAP_Session-Re-establishment-Indicator.c:141-165 asn_DEF_RANAP_Session_Re_establishment_Indicator *)
Definition T_RANAP_Session_Re_establishment_Indicator : ty := TEnum true [0] [].
(* src/ranap/RANAP_SessionUpdateID.c:141-165 asn_DEF_RANAP_SessionUpdateID *)
Definition T_RANAP_SessionUpdateID : ty := TInt (Some (mkCon false 0 1048575)).
(* src/ranap/RANAP_SignallingIndication.c:141-165 asn_DEF_RANAP_SignallingIndication *)
Definition T_RANAP_SignallingIndication : ty := TEnum true [0] [].
(* src/ranap/RANAP_Source-ToTarget-TransparentContainer.c:119-143 asn_DEF_RANAP_Source_ToTarget_TransparentContainer *)
Definition T_RANAP_Source_ToTarget_TransparentContainer : ty := TOcts None.
(* src/ranap/RANAP_SourceBSS-ToTargetBSS-TransparentContainer.c:119-143 asn_DEF_RANAP_SourceBSS_ToTargetBSS_TransparentContainer *)
Definition T_RANAP_SourceBSS_ToTargetBSS_TransparentContainer : ty := TOcts None.
(* src/ranap/RANAP_SourceRNC-ID.c:58-83 asn_DEF_RANAP_SourceRNC_ID *)
Definition T_RANAP_SourceRNC_ID : ty := TSeq false
    [(false, T_RANAP_PLMNidentity); (false, T_RANAP_RNC_ID); (true, T_RANAP_IE_Extensions)]
    [].
(* src/ranap/RANAP_SourceID.c:49-72 asn_DEF_RANAP_SourceID *)
Definition T_RANAP_SourceID : ty := TChoice true
    [T_RANAP_SourceRNC_ID; T_RANAP_SAI]
    [].
(* src/ranap/RANAP_SourceRNC-ToTargetRNC-TransparentContainer.c:158-183 asn_DEF_RANAP_SourceRNC_ToTargetRNC_TransparentContainer *)
Definition T_RANAP_SourceRNC_ToTargetRNC_TransparentContainer : ty := TSeq true
    [(false, T_RANAP_RRC_Container); (false, T_RANAP_NumberOfIuInstances); (false, T_RANAP_RelocationType); (true, T_RANAP_ChosenIntegrityProtectionAlgorithm); (true, T_RANAP_IntegrityProtectionKey); (true, T_RANAP_ChosenEncryptionAlgorithm); (true, T_RANAP_EncryptionKey); (true, T_RANAP_ChosenEncryptionAlgorithm); (true, T_RANAP_ChosenEncryptionAlgorithm); (true, T_RANAP_D_RNTI); (true, T_RANAP_TargetCellId); (true, T_RANAP_RAB_TrCH_Mapping); (true, T_RANAP_IE_Extensions)]
    [].
(* src/ranap/RANAP_SourceeNodeB-ToTargeteNodeB-TransparentContainer.c:119-143 asn_DEF_RANAP_SourceeNodeB_ToTargeteNodeB_TransparentContainer *)
Definition T_RANAP_SourceeNodeB_ToTargeteNodeB_TransparentContainer : ty := TOcts None.
(* src/ranap/RANAP_SubscriberProfileIDforRFP.c:141-165 asn_DEF_RANAP_SubscriberProfileIDforRFP *)
Definition T_RANAP_SubscriberProfileIDforRFP : ty := TInt (Some (mkCon false 1 256)).
(* src/ranap/RANAP_TBCD-STRING.c:119-143 asn_DEF_RANAP_TBCD_STRING *)
Definition T_RANAP_TBCD_STRING : ty := TOcts None.
(* src/ranap/RANAP_TMSI.c:142-166 asn_DEF_RANAP_TMSI *)
Definition T_RANAP_TMSI : ty := TOcts (Some (mkCon false 4 4)).
(* src/ranap/RANAP_Target-ToSource-TransparentContainer.c:119-143 asn_DEF_RANAP_Target_ToSource_TransparentContainer *)
Definition T_RANAP_Target_ToSource_TransparentContainer : ty := TOcts None.
(* src/ranap/RANAP_TargetBSS-ToSourceBSS-TransparentContainer.c:119-143 asn_DEF_RANAP_TargetBSS_ToSourceBSS_TransparentContainer *)
Definition T_RANAP_TargetBSS_ToSourceBSS_TransparentContainer : ty := TOcts None.
(* src/ranap/RANAP_TargetID.c:59-82 asn_DEF_RANAP_TargetID *)
Definition T_RANAP_TargetID : ty := TChoice true
    [T_RANAP_TargetRNC_ID; T_RANAP_CGI]
    [T_RANAP_TargetENB_ID].
(* src/ranap/RANAP_TargetRNC-ToSourceRNC-TransparentContainer.c:58-83 asn_DEF_RANAP_TargetRNC_ToSourceRNC_TransparentContainer *)
Definition T_RANAP_TargetRNC_ToSourceRNC_TransparentContainer : ty := TSeq true
    [(false, T_RANAP_RRC_Container); (true, T_RANAP_D_RNTI); (true, T_RANAP_IE_Extensions)]
    [].
(* src/ranap/RANAP_TargeteNodeB-ToSourceeNodeB-TransparentContainer.c:119-143 asn_DEF_RANAP_TargeteNodeB_ToSourceeNodeB_TransparentContainer *)
Definition T_RANAP_TargeteNodeB_ToSourceeNodeB_TransparentContainer : ty := TOcts None.
(* src/ranap/RANAP_TemporaryUE-ID.c:49-72 asn_DEF_RANAP_TemporaryUE_ID *)
Definition T_RANAP_TemporaryUE_ID : ty := TChoice true
    [T_RANAP_TMSI; T_RANAP_P_TMSI]
    [].
(* src/ranap/RANAP_Time-UE-StayedInCell-EnhancedGranularity.c:141-165 asn_DEF_RANAP_Time_UE_StayedInCell_EnhancedGranularity *)
Definition T_RANAP_Time_UE_StayedInCell_EnhancedGranularity : ty := TInt (Some (mkCon false 0 40950)).
(* src/ranap/RANAP_TimeToMBMSDataTransfer.c:142-166 asn_DEF_RANAP_TimeToMBMSDataTransfer *)
Definition T_RANAP_TimeToMBMSDataTransfer : ty := TOcts (Some (mkCon false 1 1)).
(* src/ranap/RANAP_TimingDifferenceULDL.c:142-166 asn_DEF_RANAP_TimingDifferenceULDL *)
Definition T_RANAP_TimingDifferenceULDL : ty := TOcts (Some (mkCon false 1 1)).
(* src/ranap/RANAP_TraceRecordingSessionInformation.c:58-83 asn_DEF_RANAP_TraceRecordingSessionInformation *)
Definition T_RANAP_TraceRecordingSessionInformation : ty := TSeq true
    [(false, T_RANAP_TraceReference); (false, T_RANAP_TraceRecordingSessionReference); (true, T_RANAP_IE_Extensions)]
    [].
(* src/ranap/RANAP_TraceType.c:142-166 asn_DEF_RANAP_TraceType *)
Definition T_RANAP_TraceType : ty := TOcts (Some (mkCon false 1 1)).
(* src/ranap/RANAP_TriggerID.c:142-166 asn_DEF_RANAP_TriggerID *)
Definition T_RANAP_TriggerID : ty := TOcts (Some (mkCon false 3 22)).
(* src/ranap/RANAP_TunnelInformation.c:58-83 asn_DEF_RANAP_TunnelInformation *)
Definition T_RANAP_TunnelInformation : ty := TSeq true
    [(false, T_RANAP_TransportLayerAddress); (true, T_RANAP_Port_Number); (true, T_RANAP_IE_Extensions)]
    [].
(* src/ranap/RANAP_TypeOfError.c:143-167 asn_DEF_RANAP_TypeOfError *)
Definition T_RANAP_TypeOfError : ty := TEnum true [0; 1] [].
(* src/ranap/RANAP_UE-AggregateMaximumBitRateDownlink.c:141-165 asn_DEF_RANAP_UE_AggregateMaximumBitRateDownlink *)
Definition T_RANAP_UE_AggregateMaximumBitRateDownlink : ty := TInt (Some (mkCon false 1 1000000000)).
(* src/ranap/RANAP_UE-AggregateMaximumBitRateUplink.c:141-165 asn_DEF_RANAP_UE_AggregateMaximumBitRateUplink *)
Definition T_RANAP_UE_AggregateMaximumBitRateUplink : ty := TInt (Some (mkCon false 1 1000000000)).
(* src/ranap/RANAP_UE-AggregateMaximumBitRate.c:48-73 asn_DEF_RANAP_UE_AggregateMaximumBitRate *)
Definition T_RANAP_UE_AggregateMaximumBitRate : ty := TSeq true
    [(true, T_RANAP_UE_AggregateMaximumBitRateDownlink); (true, T_RANAP_UE_AggregateMaximumBitRateUplink)]
    [].
(* src/ranap/RANAP_UE-History-Information.c:119-143 asn_DEF_RANAP_UE_History_Information *)
Definition T_RANAP_UE_History_Information : ty := TOcts None.
(* src/ranap/RANAP_UESBI-IuA.c:147-171 asn_DEF_RANAP_UESBI_IuA *)
Definition T_RANAP_UESBI_IuA : ty := TBits (Some (mkCon false 1 128)).
(* src/ranap/RANAP_UESBI-IuB.c:147-171 asn_DEF_RANAP_UESBI_IuB *)
Definition T_RANAP_UESBI_IuB : ty := TBits (Some (mkCon false 1 128)).
(* src/ranap/RANAP_UESBI-Iu.c:58-83 asn_DEF_RANAP_UESBI_Iu *)
Definition T_RANAP_UESBI_Iu : ty := TSeq true
    [(true, T_RANAP_UESBI_IuA); (true, T_RANAP_UESBI_IuB); (true, T_RANAP_IE_Extensions)]
    [].
(* src/ranap/RANAP_UESpecificInformationIndication.c:67-92 asn_DEF_ueSpecificInformationIndication_ies_2 *)
Definition T_RANAP_UESpecificInformationIndication__ueSpecificInformationIndication_ies_2 : ty := TSeqOf (Some (mkCon false 0 65535)) T_RANAP_IE.
(* src/ranap/RANAP_UESpecificInformationIndication.c:120-145 asn_DEF_RANAP_UESpecificInformationIndication *)
Definition T_RANAP_UESpecificInformationIndication : ty := TSeq true
    [(false, T_RANAP_UESpecificInformationIndication__ueSpecificInformationIndication_ies_2)]
    [].
(* src/ranap/RANAP_UeRadioCapabilityMatchRequest.c:67-92 asn_DEF_ueRadioCapabilityMatchRequest_ies_2 *)
Definition T_RANAP_UeRadioCapabilityMatchRequest__ueRadioCapabilityMatchRequest_ies_2 : ty := TSeqOf (Some (mkCon false 0 65535)) T_RANAP_IE.
(* src/ranap/RANAP_UeRadioCapabilityMatchRequest.c:120-145 asn_DEF_RANAP_UeRadioCapabilityMatchRequest *)
Definition T_RANAP_UeRadioCapabilityMatchRequest : ty := TSeq true
    [(false, T_RANAP_UeRadioCapabilityMatchRequest__ueRadioCapabilityMatchRequest_ies_2)]
    [].
(* src/ranap/RANAP_UeRadioCapabilityMatchResponse.c:67-92 asn_DEF_ueRadioCapabilityMatchResponse_ies_2 *)
Definition T_RANAP_UeRadioCapabilityMatchResponse__ueRadioCapabilityMatchResponse_ies_2 : ty := TSeqOf (Some (mkCon false 0 65535)) T_RANAP_IE.
(* src/ranap/RANAP_UeRadioCapabilityMatchResponse.c:120-145 asn_DEF_RANAP_UeRadioCapabilityMatchResponse *)
Definition T_RANAP_UeRadioCapabilityMatchResponse : ty := TSeq true
    [(false, T_RANAP_UeRadioCapabilityMatchResponse__ueRadioCapabilityMatchResponse_ies_2)]
    [].
(* src/ranap/RANAP_UnsuccessfulLinking-IEs-Value.c:58-83 asn_DEF_RANAP_UnsuccessfulLinking_IEs_Value *)
Definition T_RANAP_UnsuccessfulLinking_IEs_Value : ty := TSeq true
    [(false, T_RANAP_TMGI); (false, T_RANAP_Cause); (true, T_RANAP_ProtocolExtensionContainer)]
    [].
(* src/ranap/RANAP_UnsuccessfulLinking-IEs.c:34-59 asn_DEF_RANAP_UnsuccessfulLinking_IEs *)
Definition T_RANAP_UnsuccessfulLinking_IEs : ty := TSeqOf (Some (mkCon false 1 128)) T_RANAP_UnsuccessfulLinking_IEs_Value.
(* src/ranap/RANAP_UplinkInformationExchangeFailure.c:67-92 asn_DEF_uplinkInformationExchangeFailure_ies_2 *)
Definition T_RANAP_UplinkInformationExchangeFailure__uplinkInformationExchangeFailure_ies_2 : ty := TSeqOf (Some (mkCon false 0 65535)) T_RANAP_IE.
(* src/ranap/RANAP_UplinkInformationExchangeFailure.c:120-145 asn_DEF_RANAP_UplinkInformationExchangeFailure *)
Definition T_RANAP_UplinkInformationExchangeFailure : ty := TSeq true
    [(false, T_RANAP_UplinkInformationExchangeFailure__uplinkInformationExchangeFailure_ies_2)]
    [].
(* src/ranap/RANAP_UplinkInformationExchangeRequest.c:67-92 asn_DEF_uplinkInformationExchangeRequest_ies_2 *)
Definition T_RANAP_UplinkInformationExchangeRequest__uplinkInformationExchangeRequest_ies_2 : ty := TSeqOf (Some (mkCon false 0 65535)) T_RANAP_IE.
(* src/ranap/RANAP_UplinkInformationExchangeRequest.c:120-145 asn_DEF_RANAP_UplinkInformationExchangeRequest *)
Definition T_RANAP_UplinkInformationExchangeRequest : ty := TSeq true
    [(false, T_RANAP_UplinkInformationExchangeRequest__uplinkInformationExchangeRequest_ies_2)]
    [].
(* src/ranap/RANAP_UplinkInformationExchangeResponse.c:67-92 asn_DEF_uplinkInformationExchangeResponse_ies_2 *)
Definition T_RANAP_UplinkInformationExchangeResponse__uplinkInformationExchangeResponse_ies_2 : ty := TSeqOf (Some (mkCon false 0 65535)) T_RANAP_IE.
(* src/ranap/RANAP_UplinkInformationExchangeResponse.c:120-145 asn_DEF_RANAP_UplinkInformationExchangeResponse *)
Definition T_RANAP_UplinkInformationExchangeResponse : ty := TSeq true
    [(false, T_RANAP_UplinkInformationExchangeResponse__uplinkInformationExchangeResponse_ies_2)]
    [].
(* src/ranap/RANAP_VelocityEstimate.c:69-92 asn_DEF_RANAP_VelocityEstimate *)
Definition T_RANAP_VelocityEstimate : ty := TChoice true
    [T_RANAP_HorizontalVelocity; T_RANAP_HorizontalWithVerticalVelocity; T_RANAP_HorizontalVelocityWithUncertainty; T_RANAP_HorizontalWithVerticalVelocityAndUncertainty]
    [].
(* src/ranap/RANAP_VoiceSupportMatchIndicator.c:143-167 asn_DEF_RANAP_VoiceSupportMatchIndicator *)
Definition T_RANAP_VoiceSupportMatchIndicator : ty := TEnum true [0; 1] [].

Local Open Scope string_scope.
(* all descriptors of src/ranap, each at the lines cited above *)
Definition ranap_types : list (string * ty) :=
  [ ("RANAP_APN", T_RANAP_APN);
    ("RANAP_AccuracyFulfilmentIndicator", T_RANAP_AccuracyFulfilmentIndicator);
    ("RANAP_PriorityLevel", T_RANAP_PriorityLevel);
    ("RANAP_Pre_emptionCapability", T_RANAP_Pre_emptionCapability);
    ("RANAP_Pre_emptionVulnerability", T_RANAP_Pre_emptionVulnerability);
    ("RANAP_QueuingAllowed", T_RANAP_QueuingAllowed);
    ("RANAP_ProtocolIE_ID", T_RANAP_ProtocolIE_ID);
    ("RANAP_Criticality", T_RANAP_Criticality);
    ("RANAP_IE", T_RANAP_IE);
    ("RANAP_IE_Extensions", T_RANAP_IE_Extensions);
    ("RANAP_AllocationOrRetentionPriority", T_RANAP_AllocationOrRetentionPriority);
    ("RANAP_Alt_RAB_Parameter_GuaranteedBitrateType", T_RANAP_Alt_RAB_Parameter_GuaranteedBitrateType);
    ("RANAP_ExtendedGuaranteedBitrate", T_RANAP_ExtendedGuaranteedBitrate);
    ("RANAP_Alt_RAB_Parameter_ExtendedGuaranteedBitrateList", T_RANAP_Alt_RAB_Parameter_ExtendedGuaranteedBitrateList);
    ("RANAP_Alt_RAB_Parameter_ExtendedGuaranteedBitrates", T_RANAP_Alt_RAB_Parameter_ExtendedGuaranteedBitrates);
    ("RANAP_Alt_RAB_Parameter_ExtendedGuaranteedBitrateInf", T_RANAP_Alt_RAB_Parameter_ExtendedGuaranteedBitrateInf);
    ("RANAP_Alt_RAB_Parameter_MaxBitrateType", T_RANAP_Alt_RAB_Parameter_MaxBitrateType);
    ("RANAP_ExtendedMaxBitrate", T_RANAP_ExtendedMaxBitrate);
    ("RANAP_Alt_RAB_Parameter_ExtendedMaxBitrateList", T_RANAP_Alt_RAB_Parameter_ExtendedMaxBitrateList);
    ("RANAP_Alt_RAB_Parameter_ExtendedMaxBitrates", T_RANAP_Alt_RAB_Parameter_ExtendedMaxBitrates);
    ("RANAP_Alt_RAB_Parameter_ExtendedMaxBitrateInf", T_RANAP_Alt_RAB_Parameter_ExtendedMaxBitrateInf);
    ("RANAP_GuaranteedBitrate", T_RANAP_GuaranteedBitrate);
    ("RANAP_Alt_RAB_Parameter_GuaranteedBitrateList", T_RANAP_Alt_RAB_Parameter_GuaranteedBitrateList);
    ("RANAP_Alt_RAB_Parameter_GuaranteedBitrates", T_RANAP_Alt_RAB_Parameter_GuaranteedBitrates);
    ("RANAP_Alt_RAB_Parameter_GuaranteedBitrateInf", T_RANAP_Alt_RAB_Parameter_GuaranteedBitrateInf);
    ("RANAP_MaxBitrate", T_RANAP_MaxBitrate);
    ("RANAP_Alt_RAB_Parameter_MaxBitrateList", T_RANAP_Alt_RAB_Parameter_MaxBitrateList);
    ("RANAP_Alt_RAB_Parameter_MaxBitrates", T_RANAP_Alt_RAB_Parameter_MaxBitrates);
    ("RANAP_Alt_RAB_Parameter_MaxBitrateInf", T_RANAP_Alt_RAB_Parameter_MaxBitrateInf);
    ("RANAP_SupportedBitrate", T_RANAP_SupportedBitrate);
    ("RANAP_SupportedRAB_ParameterBitrateList", T_RANAP_SupportedRAB_ParameterBitrateList);
    ("RANAP_Alt_RAB_Parameter_SupportedGuaranteedBitrates", T_RANAP_Alt_RAB_Parameter_SupportedGuaranteedBitrates);
    ("RANAP_Alt_RAB_Parameter_SupportedGuaranteedBitrateInf", T_RANAP_Alt_RAB_Parameter_SupportedGuaranteedBitrateInf);
    ("RANAP_Alt_RAB_Parameter_SupportedMaxBitrates", T_RANAP_Alt_RAB_Parameter_SupportedMaxBitrates);
    ("RANAP_Alt_RAB_Parameter_SupportedMaxBitrateInf", T_RANAP_Alt_RAB_Parameter_SupportedMaxBitrateInf);
    ("RANAP_Alt_RAB_Parameters", T_RANAP_Alt_RAB_Parameters);
    ("RANAP_AlternativeRABConfigurationRequest", T_RANAP_AlternativeRABConfigurationRequest);
    ("RANAP_PLMNidentity", T_RANAP_PLMNidentity);
    ("RANAP_LAC", T_RANAP_LAC);
    ("RANAP_SAC", T_RANAP_SAC);
    ("RANAP_SAI", T_RANAP_SAI);
    ("RANAP_GeographicalCoordinates__latitudeSign_2", T_RANAP_GeographicalCoordinates__latitudeSign_2);
    ("RANAP_GeographicalCoordinates", T_RANAP_GeographicalCoordinates);
    ("RANAP_GA_Point", T_RANAP_GA_Point);
    ("RANAP_GA_PointWithUnCertainty", T_RANAP_GA_PointWithUnCertainty);
    ("RANAP_GA_Polygon_Value", T_RANAP_GA_Polygon_Value);
    ("RANAP_GA_Polygon", T_RANAP_GA_Polygon);
    ("RANAP_GA_UncertaintyEllipse", T_RANAP_GA_UncertaintyEllipse);
    ("RANAP_GA_PointWithUnCertaintyEllipse", T_RANAP_GA_PointWithUnCertaintyEllipse);
    ("RANAP_GA_AltitudeAndDirection__directionOfAltitude_2", T_RANAP_GA_AltitudeAndDirection__directionOfAltitude_2);
    ("RANAP_GA_AltitudeAndDirection", T_RANAP_GA_AltitudeAndDirection);
    ("RANAP_GA_PointWithAltitude", T_RANAP_GA_PointWithAltitude);
    ("RANAP_GA_PointWithAltitudeAndUncertaintyEllipsoid", T_RANAP_GA_PointWithAltitudeAndUncertaintyEllipsoid);
    ("RANAP_GA_EllipsoidArc", T_RANAP_GA_EllipsoidArc);
    ("RANAP_GeographicalArea", T_RANAP_GeographicalArea);
    ("RANAP_AreaIdentity", T_RANAP_AreaIdentity);
    ("RANAP_Ass_RAB_Parameter_ExtendedGuaranteedBitrateList", T_RANAP_Ass_RAB_Parameter_ExtendedGuaranteedBitrateList);
    ("RANAP_Ass_RAB_Parameter_ExtendedMaxBitrateList", T_RANAP_Ass_RAB_Parameter_ExtendedMaxBitrateList);
    ("RANAP_Ass_RAB_Parameter_GuaranteedBitrateList", T_RANAP_Ass_RAB_Parameter_GuaranteedBitrateList);
    ("RANAP_Ass_RAB_Parameter_MaxBitrateList", T_RANAP_Ass_RAB_Parameter_MaxBitrateList);
    ("RANAP_Ass_RAB_Parameters", T_RANAP_Ass_RAB_Parameters);
    ("RANAP_SNAC", T_RANAP_SNAC);
    ("RANAP_AuthorisedSNAs", T_RANAP_AuthorisedSNAs);
    ("RANAP_AuthorisedPLMNs_Value", T_RANAP_AuthorisedPLMNs_Value);
    ("RANAP_AuthorisedPLMNs", T_RANAP_AuthorisedPLMNs);
    ("RANAP_BindingID", T_RANAP_BindingID);
    ("RANAP_BroadcastAssistanceDataDecipheringKeys", T_RANAP_BroadcastAssistanceDataDecipheringKeys);
    ("RANAP_CI", T_RANAP_CI);
    ("RANAP_CGI", T_RANAP_CGI);
    ("RANAP_CN_DeactivateTrace__cN_DeactivateTrace_ies_2", T_RANAP_CN_DeactivateTrace__cN_DeactivateTrace_ies_2);
    ("RANAP_CN_DeactivateTrace", T_RANAP_CN_DeactivateTrace);
    ("RANAP_CN_DomainIndicator", T_RANAP_CN_DomainIndicator);
    ("RANAP_CN_ID", T_RANAP_CN_ID);
    ("RANAP_CN_InvokeTrace__cN_InvokeTrace_ies_2", T_RANAP_CN_InvokeTrace__cN_InvokeTrace_ies_2);
    ("RANAP_CN_InvokeTrace", T_RANAP_CN_InvokeTrace);
    ("RANAP_TMGI", T_RANAP_TMGI);
    ("RANAP_MBMS_PTP_RAB_ID", T_RANAP_MBMS_PTP_RAB_ID);
    ("RANAP_ProtocolExtensionField", T_RANAP_ProtocolExtensionField);
    ("RANAP_ProtocolExtensionContainer", T_RANAP_ProtocolExtensionContainer);
    ("RANAP_JoinedMBMSBearerService_IEs_Value", T_RANAP_JoinedMBMSBearerService_IEs_Value);
    ("RANAP_JoinedMBMSBearerService_IEs", T_RANAP_JoinedMBMSBearerService_IEs);
    ("RANAP_CNMBMSLinkingInformation", T_RANAP_CNMBMSLinkingInformation);
    ("RANAP_CSFB_Information", T_RANAP_CSFB_Information);
    ("RANAP_CSG_Id", T_RANAP_CSG_Id);
    ("RANAP_CSG_Id_List", T_RANAP_CSG_Id_List);
    ("RANAP_CSG_Membership_Status", T_RANAP_CSG_Membership_Status);
    ("RANAP_CauseRadioNetwork", T_RANAP_CauseRadioNetwork);
    ("RANAP_CauseTransmissionNetwork", T_RANAP_CauseTransmissionNetwork);
    ("RANAP_CauseNAS", T_RANAP_CauseNAS);
    ("RANAP_CauseProtocol", T_RANAP_CauseProtocol);
    ("RANAP_CauseMisc", T_RANAP_CauseMisc);
    ("RANAP_CauseNon_Standard", T_RANAP_CauseNon_Standard);
    ("RANAP_CauseRadioNetworkExtension", T_RANAP_CauseRadioNetworkExtension);
    ("RANAP_Cause", T_RANAP_Cause);
    ("RANAP_Cell_Access_Mode", T_RANAP_Cell_Access_Mode);
    ("RANAP_Cell_Capacity_Class_Value", T_RANAP_Cell_Capacity_Class_Value);
    ("RANAP_Cell_Id", T_RANAP_Cell_Id);
    ("RANAP_CellIdList", T_RANAP_CellIdList);
    ("RANAP_CellBased", T_RANAP_CellBased);
    ("RANAP_LoadValue", T_RANAP_LoadValue);
    ("RANAP_RTLoadValue", T_RANAP_RTLoadValue);
    ("RANAP_NRTLoadInformationValue", T_RANAP_NRTLoadInformationValue);
    ("RANAP_CellLoadInformation", T_RANAP_CellLoadInformation);
    ("RANAP_TargetCellId", T_RANAP_TargetCellId);
    ("RANAP_SourceUTRANCellID", T_RANAP_SourceUTRANCellID);
    ("RANAP_SourceCellID", T_RANAP_SourceCellID);
    ("RANAP_CellLoadInformationGroup", T_RANAP_CellLoadInformationGroup);
    ("RANAP_CellType", T_RANAP_CellType);
    ("RANAP_ChosenEncryptionAlgorithm", T_RANAP_ChosenEncryptionAlgorithm);
    ("RANAP_ChosenIntegrityProtectionAlgorithm", T_RANAP_ChosenIntegrityProtectionAlgorithm);
    ("RANAP_ClassmarkInformation2", T_RANAP_ClassmarkInformation2);
    ("RANAP_ClassmarkInformation3", T_RANAP_ClassmarkInformation3);
    ("RANAP_ClientType", T_RANAP_ClientType);
    ("RANAP_CommonID__commonID_ies_2", T_RANAP_CommonID__commonID_ies_2);
    ("RANAP_CommonID", T_RANAP_CommonID);
    ("RANAP_Correlation_ID", T_RANAP_Correlation_ID);
    ("RANAP_RepetitionNumber0", T_RANAP_RepetitionNumber0);
    ("RANAP_CriticalityDiagnostics_IE_List_Value", T_RANAP_CriticalityDiagnostics_IE_List_Value);
    ("RANAP_CriticalityDiagnostics_IE_List", T_RANAP_CriticalityDiagnostics_IE_List);
    ("RANAP_ProcedureCode", T_RANAP_ProcedureCode);
    ("RANAP_TriggeringMessage", T_RANAP_TriggeringMessage);
    ("RANAP_CriticalityDiagnostics", T_RANAP_CriticalityDiagnostics);
    ("RANAP_D_RNTI", T_RANAP_D_RNTI);
    ("RANAP_DCH_ID", T_RANAP_DCH_ID);
    ("RANAP_DL_GTP_PDU_SequenceNumber", T_RANAP_DL_GTP_PDU_SequenceNumber);
    ("RANAP_DL_N_PDU_SequenceNumber", T_RANAP_DL_N_PDU_SequenceNumber);
    ("RANAP_DRX_CycleLengthCoefficient", T_RANAP_DRX_CycleLengthCoefficient);
    ("RANAP_DSCH_ID", T_RANAP_DSCH_ID);
    ("RANAP_DataPDUType", T_RANAP_DataPDUType);
    ("RANAP_UnsuccessfullyTransmittedDataVolume", T_RANAP_UnsuccessfullyTransmittedDataVolume);
    ("RANAP_DataVolumeReference", T_RANAP_DataVolumeReference);
    ("RANAP_DataVolumeList_Value", T_RANAP_DataVolumeList_Value);
    ("RANAP_DataVolumeList", T_RANAP_DataVolumeList);
    ("RANAP_DataVolumeReport__dataVolumeReport_ies_2", T_RANAP_DataVolumeReport__dataVolumeReport_ies_2);
    ("RANAP_DataVolumeReport", T_RANAP_DataVolumeReport);
    ("RANAP_DataVolumeReportList__dataVolumeReportListe_ies_2", T_RANAP_DataVolumeReportList__dataVolumeReportListe_ies_2);
    ("RANAP_DataVolumeReportList", T_RANAP_DataVolumeReportList);
    ("RANAP_DataVolumeReportRequest__dataVolumeReportRequest_ies_2", T_RANAP_DataVolumeReportRequest__dataVolumeReportRequest_ies_2);
    ("RANAP_DataVolumeReportRequest", T_RANAP_DataVolumeReportRequest);
    ("RANAP_DataVolumeReportingIndication", T_RANAP_DataVolumeReportingIndication);
    ("RANAP_DeliveryOfErroneousSDU", T_RANAP_DeliveryOfErroneousSDU);
    ("RANAP_DeliveryOrder", T_RANAP_DeliveryOrder);
    ("RANAP_RAC", T_RANAP_RAC);
    ("RANAP_NewRAListofIdleModeUEs", T_RANAP_NewRAListofIdleModeUEs);
    ("RANAP_RAListwithNoIdleModeUEsAnyMore", T_RANAP_RAListwithNoIdleModeUEsAnyMore);
    ("RANAP_DeltaRAListofIdleModeUEs", T_RANAP_DeltaRAListofIdleModeUEs);
    ("RANAP_DirectInformationTransfer__directInformationTransfer_ies_2", T_RANAP_DirectInformationTransfer__directInformationTransfer_ies_2);
    ("RANAP_DirectInformationTransfer", T_RANAP_DirectInformationTransfer);
    ("RANAP_DirectReportingIndicator", T_RANAP_DirectReportingIndicator);
    ("RANAP_ProtocolIE_Container", T_RANAP_ProtocolIE_Container);
    ("RANAP_DirectTransfer_IE_ContainerList", T_RANAP_DirectTransfer_IE_ContainerList);
    ("RANAP_DirectTransfer__directTransfer_ies_2", T_RANAP_DirectTransfer__directTransfer_ies_2);
    ("RANAP_DirectTransfer", T_RANAP_DirectTransfer);
    ("RANAP_NAS_PDU", T_RANAP_NAS_PDU);
    ("RANAP_SAPI", T_RANAP_SAPI);
    ("RANAP_DirectTransferInformationItem_RANAP_RelocInf", T_RANAP_DirectTransferInformationItem_RANAP_RelocInf);
    ("RANAP_E_DCH_MAC_d_Flow_ID", T_RANAP_E_DCH_MAC_d_Flow_ID);
    ("RANAP_E_UTRAN_Service_Handover", T_RANAP_E_UTRAN_Service_Handover);
    ("RANAP_EARFCN_Extended", T_RANAP_EARFCN_Extended);
    ("RANAP_ENB_ID", T_RANAP_ENB_ID);
    ("RANAP_MeasBand", T_RANAP_MeasBand);
    ("RANAP_EUTRANFrequencies_Value", T_RANAP_EUTRANFrequencies_Value);
    ("RANAP_EUTRANFrequencies", T_RANAP_EUTRANFrequencies);
    ("RANAP_EncryptionAlgorithm", T_RANAP_EncryptionAlgorithm);
    ("RANAP_PermittedEncryptionAlgorithms", T_RANAP_PermittedEncryptionAlgorithms);
    ("RANAP_EncryptionKey", T_RANAP_EncryptionKey);
    ("RANAP_EncryptionInformation", T_RANAP_EncryptionInformation);
    ("RANAP_End_Of_CSFB", T_RANAP_End_Of_CSFB);
    ("RANAP_EnhancedRelocationCompleteConfirm__enhancedRelocationCompleteConfirm_ies_2", T_RANAP_EnhancedRelocationCompleteConfirm__enhancedRelocationCompleteConfirm_ies_2);
    ("RANAP_EnhancedRelocationCompleteConfirm", T_RANAP_EnhancedRelocationCompleteConfirm);
    ("RANAP_EnhancedRelocationCompleteFailure__enhancedRelocationCompleteFailure_ies_2", T_RANAP_EnhancedRelocationCompleteFailure__enhancedRelocationCompleteFailure_ies_2);
    ("RANAP_EnhancedRelocationCompleteFailure", T_RANAP_EnhancedRelocationCompleteFailure);
    ("RANAP_EnhancedRelocationCompleteRequest__enhancedRelocationCompleteRequest_ies_2", T_RANAP_EnhancedRelocationCompleteRequest__enhancedRelocationCompleteRequest_ies_2);
    ("RANAP_EnhancedRelocationCompleteRequest", T_RANAP_EnhancedRelocationCompleteRequest);
    ("RANAP_EnhancedRelocationCompleteResponse__enhancedRelocationCompleteResponse_ies_2", T_RANAP_EnhancedRelocationCompleteResponse__enhancedRelocationCompleteResponse_ies_2);
    ("RANAP_EnhancedRelocationCompleteResponse", T_RANAP_EnhancedRelocationCompleteResponse);
    ("RANAP_IMEI", T_RANAP_IMEI);
    ("RANAP_IMEIList", T_RANAP_IMEIList);
    ("RANAP_IMEISV", T_RANAP_IMEISV);
    ("RANAP_IMEISVList", T_RANAP_IMEISVList);
    ("RANAP_IMEIGroup", T_RANAP_IMEIGroup);
    ("RANAP_IMEISVGroup", T_RANAP_IMEISVGroup);
    ("RANAP_EquipmentsToBeTraced", T_RANAP_EquipmentsToBeTraced);
    ("RANAP_ErrorIndication__errorIndication_ies_2", T_RANAP_ErrorIndication__errorIndication_ies_2);
    ("RANAP_ErrorIndication", T_RANAP_ErrorIndication);
    ("RANAP_Event", T_RANAP_Event);
    ("RANAP_MeasurementQuantity", T_RANAP_MeasurementQuantity);
    ("RANAP_Event1F_Parameters", T_RANAP_Event1F_Parameters);
    ("RANAP_Event1I_Parameters", T_RANAP_Event1I_Parameters);
    ("RANAP_ExtendedRNC_ID", T_RANAP_ExtendedRNC_ID);
    ("RANAP_ForwardSRNS_Context__forwardSRNS_Context_ies_2", T_RANAP_ForwardSRNS_Context__forwardSRNS_Context_ies_2);
    ("RANAP_ForwardSRNS_Context", T_RANAP_ForwardSRNS_Context);
    ("RANAP_ForwardingIndication", T_RANAP_ForwardingIndication);
    ("RANAP_FrameSequenceNumber", T_RANAP_FrameSequenceNumber);
    ("RANAP_FrequenceLayerConvergenceFlag", T_RANAP_FrequenceLayerConvergenceFlag);
    ("RANAP_GANSS_PositioningMethodAndUsage", T_RANAP_GANSS_PositioningMethodAndUsage);
    ("RANAP_GANSS_PositioningDataSet", T_RANAP_GANSS_PositioningDataSet);
    ("RANAP_GERAN_BSC_Container", T_RANAP_GERAN_BSC_Container);
    ("RANAP_LAI", T_RANAP_LAI);
    ("RANAP_GERAN_Cell_ID", T_RANAP_GERAN_Cell_ID);
    ("RANAP_GERAN_Classmark", T_RANAP_GERAN_Classmark);
    ("RANAP_RAB_ID", T_RANAP_RAB_ID);
    ("RANAP_GERAN_Iumode_RAB_Failed_RABAssgntResponse_Item", T_RANAP_GERAN_Iumode_RAB_Failed_RABAssgntResponse_Item);
    ("RANAP_GERAN_Iumode_RAB_Failed_RABAssgntResponse_List__geraN_Iumode_RAB_Failed_RABAssgntResponse_List_ies_2", T_RANAP_GERAN_Iumode_RAB_Failed_RABAssgntResponse_List__geraN_Iumode_RAB_Failed_RABAssgntResponse_List_ies_2);
    ("RANAP_GERAN_Iumode_RAB_Failed_RABAssgntResponse_List", T_RANAP_GERAN_Iumode_RAB_Failed_RABAssgntResponse_List);
    ("RANAP_GTP_TEI", T_RANAP_GTP_TEI);
    ("RANAP_GlobalCN_ID", T_RANAP_GlobalCN_ID);
    ("RANAP_RNC_ID", T_RANAP_RNC_ID);
    ("RANAP_GlobalRNC_ID", T_RANAP_GlobalRNC_ID);
    ("RANAP_HS_DSCH_MAC_d_Flow_ID", T_RANAP_HS_DSCH_MAC_d_Flow_ID);
    ("RANAP_HigherBitratesThan16MbpsFlag", T_RANAP_HigherBitratesThan16MbpsFlag);
    ("RANAP_HorizontalSpeedAndBearing", T_RANAP_HorizontalSpeedAndBearing);
    ("RANAP_HorizontalVelocity", T_RANAP_HorizontalVelocity);
    ("RANAP_HorizontalVelocityWithUncertainty", T_RANAP_HorizontalVelocityWithUncertainty);
    ("RANAP_VerticalSpeedDirection", T_RANAP_VerticalSpeedDirection);
    ("RANAP_VerticalVelocity", T_RANAP_VerticalVelocity);
    ("RANAP_HorizontalWithVerticalVelocity", T_RANAP_HorizontalWithVerticalVelocity);
    ("RANAP_HorizontalWithVerticalVelocityAndUncertainty", T_RANAP_HorizontalWithVerticalVelocityAndUncertainty);
    ("RANAP_IMSI", T_RANAP_IMSI);
    ("RANAP_IPMulticastAddress", T_RANAP_IPMulticastAddress);
    ("RANAP_IRATmeasurementParameters", T_RANAP_IRATmeasurementParameters);
    ("RANAP_IRAT_Measurement_Configuration", T_RANAP_IRAT_Measurement_Configuration);
    ("RANAP_MeasurementsToActivate", T_RANAP_MeasurementsToActivate);
    ("RANAP_ReportInterval", T_RANAP_ReportInterval);
    ("RANAP_ReportAmount", T_RANAP_ReportAmount);
    ("RANAP_MDT_Report_Parameters", T_RANAP_MDT_Report_Parameters);
    ("RANAP_M1Report", T_RANAP_M1Report);
    ("RANAP_M2Report", T_RANAP_M2Report);
    ("RANAP_ImmediateMDT", T_RANAP_ImmediateMDT);
    ("RANAP_IncludeVelocity", T_RANAP_IncludeVelocity);
    ("RANAP_InformationExchangeID", T_RANAP_InformationExchangeID);
    ("RANAP_InformationExchangeType", T_RANAP_InformationExchangeType);
    ("RANAP_MBMSIPMulticastAddressandAPNRequest", T_RANAP_MBMSIPMulticastAddressandAPNRequest);
    ("RANAP_PermanentNAS_UE_ID", T_RANAP_PermanentNAS_UE_ID);
    ("RANAP_InformationRequestType", T_RANAP_InformationRequestType);
    ("RANAP_MBMSIPMulticastAddressandAPNlist", T_RANAP_MBMSIPMulticastAddressandAPNlist);
    ("RANAP_RequestedMBMSIPMulticastAddressandAPNRequest", T_RANAP_RequestedMBMSIPMulticastAddressandAPNRequest);
    ("RANAP_RequestedMulticastServiceList", T_RANAP_RequestedMulticastServiceList);
    ("RANAP_InformationRequested", T_RANAP_InformationRequested);
    ("RANAP_InformationTransferConfirmation__informationTransferConfirmation_ies_2", T_RANAP_InformationTransferConfirmation__informationTransferConfirmation_ies_2);
    ("RANAP_InformationTransferConfirmation", T_RANAP_InformationTransferConfirmation);
    ("RANAP_InformationTransferFailure__informationTransferFailure_ies_2", T_RANAP_InformationTransferFailure__informationTransferFailure_ies_2);
    ("RANAP_InformationTransferFailure", T_RANAP_InformationTransferFailure);
    ("RANAP_InformationTransferID", T_RANAP_InformationTransferID);
    ("RANAP_InformationTransferIndication__informationTransferIndication_ies_2", T_RANAP_InformationTransferIndication__informationTransferIndication_ies_2);
    ("RANAP_InformationTransferIndication", T_RANAP_InformationTransferIndication);
    ("RANAP_TraceReference", T_RANAP_TraceReference);
    ("RANAP_RNCTraceInformation__traceActivationIndicato_3", T_RANAP_RNCTraceInformation__traceActivationIndicato_3);
    ("RANAP_RNCTraceInformation", T_RANAP_RNCTraceInformation);
    ("RANAP_InformationTransferType", T_RANAP_InformationTransferType);
    ("RANAP_InitialUE_Message__initialUE_Message_ies_2", T_RANAP_InitialUE_Message__initialUE_Message_ies_2);
    ("RANAP_InitialUE_Message", T_RANAP_InitialUE_Message);
    ("RANAP_InitiatingMessage", T_RANAP_InitiatingMessage);
    ("RANAP_IntegrityProtectionAlgorithm", T_RANAP_IntegrityProtectionAlgorithm);
    ("RANAP_PermittedIntegrityProtectionAlgorithms", T_RANAP_PermittedIntegrityProtectionAlgorithms);
    ("RANAP_IntegrityProtectionKey", T_RANAP_IntegrityProtectionKey);
    ("RANAP_IntegrityProtectionInformation", T_RANAP_IntegrityProtectionInformation);
    ("RANAP_InterSystemInformation_TransparentContainer", T_RANAP_InterSystemInformation_TransparentContainer);
    ("RANAP_RIMInformation", T_RANAP_RIMInformation);
    ("RANAP_TargetRNC_ID", T_RANAP_TargetRNC_ID);
    ("RANAP_TAC", T_RANAP_TAC);
    ("RANAP_TAI", T_RANAP_TAI);
    ("RANAP_TargetENB_ID", T_RANAP_TargetENB_ID);
    ("RANAP_RIMRoutingAddress", T_RANAP_RIMRoutingAddress);
    ("RANAP_RIM_Transfer", T_RANAP_RIM_Transfer);
    ("RANAP_InterSystemInformationTransferType", T_RANAP_InterSystemInformationTransferType);
    ("RANAP_InterfacesToTraceItem__interface_2", T_RANAP_InterfacesToTraceItem__interface_2);
    ("RANAP_InterfacesToTraceItem", T_RANAP_InterfacesToTraceItem);
    ("RANAP_Iu_ReleaseCommand__iu_ReleaseCommand_ies_2", T_RANAP_Iu_ReleaseCommand__iu_ReleaseCommand_ies_2);
    ("RANAP_Iu_ReleaseCommand", T_RANAP_Iu_ReleaseCommand);
    ("RANAP_Iu_ReleaseComplete__iu_ReleaseComplete_ies_2", T_RANAP_Iu_ReleaseComplete__iu_ReleaseComplete_ies_2);
    ("RANAP_Iu_ReleaseComplete", T_RANAP_Iu_ReleaseComplete);
    ("RANAP_Iu_ReleaseRequest__iu_ReleaseRequest_ies_2", T_RANAP_Iu_ReleaseRequest__iu_ReleaseRequest_ies_2);
    ("RANAP_Iu_ReleaseRequest", T_RANAP_Iu_ReleaseRequest);
    ("RANAP_IuSigConId_IE_ContainerList", T_RANAP_IuSigConId_IE_ContainerList);
    ("RANAP_IuSignallingConnectionIdentifier", T_RANAP_IuSignallingConnectionIdentifier);
    ("RANAP_IuTransportAssociation", T_RANAP_IuTransportAssociation);
    ("RANAP_KeyStatus", T_RANAP_KeyStatus);
    ("RANAP_L3_Information", T_RANAP_L3_Information);
    ("RANAP_ListOF_SNAs", T_RANAP_ListOF_SNAs);
    ("RANAP_LA_LIST_Value", T_RANAP_LA_LIST_Value);
    ("RANAP_LA_LIST", T_RANAP_LA_LIST);
    ("RANAP_LAI_List", T_RANAP_LAI_List);
    ("RANAP_LABased", T_RANAP_LABased);
    ("RANAP_LAListofIdleModeUEs", T_RANAP_LAListofIdleModeUEs);
    ("RANAP_LHN_ID", T_RANAP_LHN_ID);
    ("RANAP_LastKnownServiceArea", T_RANAP_LastKnownServiceArea);
    ("RANAP_UTRAN_CellID", T_RANAP_UTRAN_CellID);
    ("RANAP_Time_UE_StayedInCell", T_RANAP_Time_UE_StayedInCell);
    ("RANAP_LastVisitedUTRANCell_Item", T_RANAP_LastVisitedUTRANCell_Item);
    ("RANAP_LeftMBMSBearerService_IEs_Value", T_RANAP_LeftMBMSBearerService_IEs_Value);
    ("RANAP_LeftMBMSBearerService_IEs", T_RANAP_LeftMBMSBearerService_IEs);
    ("RANAP_Links_to_log", T_RANAP_Links_to_log);
    ("RANAP_ListOfInterfacesToTrace", T_RANAP_ListOfInterfacesToTrace);
    ("RANAP_LocationRelatedDataFailure__locationRelatedDataFailure_ies_2", T_RANAP_LocationRelatedDataFailure__locationRelatedDataFailure_ies_2);
    ("RANAP_LocationRelatedDataFailure", T_RANAP_LocationRelatedDataFailure);
    ("RANAP_LocationRelatedDataRequest__locationRelatedDataRequest_ies_2", T_RANAP_LocationRelatedDataRequest__locationRelatedDataRequest_ies_2);
    ("RANAP_LocationRelatedDataRequest", T_RANAP_LocationRelatedDataRequest);
    ("RANAP_RequestedLocationRelatedDataType", T_RANAP_RequestedLocationRelatedDataType);
    ("RANAP_RequestedGPSAssistanceData", T_RANAP_RequestedGPSAssistanceData);
    ("RANAP_LocationRelatedDataRequestType", T_RANAP_LocationRelatedDataRequestType);
    ("RANAP_LocationRelatedDataRequestTypeSpecificToGERANIuMode", T_RANAP_LocationRelatedDataRequestTypeSpecificToGERANIuMode);
    ("RANAP_LocationRelatedDataResponse__locationRelatedDataResponse_ies_2", T_RANAP_LocationRelatedDataResponse__locationRelatedDataResponse_ies_2);
    ("RANAP_LocationRelatedDataResponse", T_RANAP_LocationRelatedDataResponse);
    ("RANAP_LocationReport__locationReport_ies_2", T_RANAP_LocationReport__locationReport_ies_2);
    ("RANAP_LocationReport", T_RANAP_LocationReport);
    ("RANAP_LocationReportingControl__locationReportingControl_ies_2", T_RANAP_LocationReportingControl__locationReportingControl_ies_2);
    ("RANAP_LocationReportingControl", T_RANAP_LocationReportingControl);
    ("RANAP_ReportChangeOfSAI", T_RANAP_ReportChangeOfSAI);
    ("RANAP_PeriodicReportingIndicator", T_RANAP_PeriodicReportingIndicator);
    ("RANAP_VerticalAccuracyCode", T_RANAP_VerticalAccuracyCode);
    ("RANAP_PositioningPriority", T_RANAP_PositioningPriority);
    ("RANAP_ResponseTime", T_RANAP_ResponseTime);
    ("RANAP_PeriodicLocationInfo", T_RANAP_PeriodicLocationInfo);
    ("RANAP_LocationReportingTransferInformation", T_RANAP_LocationReportingTransferInformation);
    ("RANAP_LoggingInterval", T_RANAP_LoggingInterval);
    ("RANAP_LoggingDuration", T_RANAP_LoggingDuration);
    ("RANAP_LoggedMDT", T_RANAP_LoggedMDT);
    ("RANAP_M4_Period", T_RANAP_M4_Period);
    ("RANAP_M4_Threshold", T_RANAP_M4_Threshold);
    ("RANAP_M4_Collection_Parameters", T_RANAP_M4_Collection_Parameters);
    ("RANAP_M4Report", T_RANAP_M4Report);
    ("RANAP_M5_Period", T_RANAP_M5_Period);
    ("RANAP_M5Report", T_RANAP_M5Report);
    ("RANAP_M6_Period", T_RANAP_M6_Period);
    ("RANAP_M6Report", T_RANAP_M6Report);
    ("RANAP_M7_Period", T_RANAP_M7_Period);
    ("RANAP_M7Report", T_RANAP_M7Report);
    ("RANAP_MBMSBearerServiceType", T_RANAP_MBMSBearerServiceType);
    ("RANAP_MBMSCNDe_Registration", T_RANAP_MBMSCNDe_Registration);
    ("RANAP_MBMSCNDe_RegistrationRequest__mbmscnDe_RegistrationRequest_ies_2", T_RANAP_MBMSCNDe_RegistrationRequest__mbmscnDe_RegistrationRequest_ies_2);
    ("RANAP_MBMSCNDe_RegistrationRequest", T_RANAP_MBMSCNDe_RegistrationRequest);
    ("RANAP_MBMSCNDe_RegistrationResponse__mbmscnDe_RegistrationResponse_ies_2", T_RANAP_MBMSCNDe_RegistrationResponse__mbmscnDe_RegistrationResponse_ies_2);
    ("RANAP_MBMSCNDe_RegistrationResponse", T_RANAP_MBMSCNDe_RegistrationResponse);
    ("RANAP_MBMSCountingInformation", T_RANAP_MBMSCountingInformation);
    ("RANAP_MBMSHCIndicator", T_RANAP_MBMSHCIndicator);
    ("RANAP_MBMSLinkingInformation", T_RANAP_MBMSLinkingInformation);
    ("RANAP_MBMSRABEstablishmentIndication__mbmsrabEstablishmentIndication_ies_2", T_RANAP_MBMSRABEstablishmentIndication__mbmsrabEstablishmentIndication_ies_2);
    ("RANAP_MBMSRABEstablishmentIndication", T_RANAP_MBMSRABEstablishmentIndication);
    ("RANAP_MBMSRABRelease__mbmsrabRelease_ies_2", T_RANAP_MBMSRABRelease__mbmsrabRelease_ies_2);
    ("RANAP_MBMSRABRelease", T_RANAP_MBMSRABRelease);
    ("RANAP_MBMSRABReleaseFailure__mbmsrabReleaseFailure_ies_2", T_RANAP_MBMSRABReleaseFailure__mbmsrabReleaseFailure_ies_2);
    ("RANAP_MBMSRABReleaseFailure", T_RANAP_MBMSRABReleaseFailure);
    ("RANAP_MBMSRABReleaseRequest__mbmsrabReleaseRequest_ies_2", T_RANAP_MBMSRABReleaseRequest__mbmsrabReleaseRequest_ies_2);
    ("RANAP_MBMSRABReleaseRequest", T_RANAP_MBMSRABReleaseRequest);
    ("RANAP_MBMSRegistrationFailure__mbmsRegistrationFailure_ies_2", T_RANAP_MBMSRegistrationFailure__mbmsRegistrationFailure_ies_2);
    ("RANAP_MBMSRegistrationFailure", T_RANAP_MBMSRegistrationFailure);
    ("RANAP_MBMSRegistrationRequest__mbmsRegistrationRequest_ies_2", T_RANAP_MBMSRegistrationRequest__mbmsRegistrationRequest_ies_2);
    ("RANAP_MBMSRegistrationRequest", T_RANAP_MBMSRegistrationRequest);
    ("RANAP_MBMSRegistrationRequestType", T_RANAP_MBMSRegistrationRequestType);
    ("RANAP_MBMSRegistrationResponse__mbmsRegistrationResponse_ies_2", T_RANAP_MBMSRegistrationResponse__mbmsRegistrationResponse_ies_2);
    ("RANAP_MBMSRegistrationResponse", T_RANAP_MBMSRegistrationResponse);
    ("RANAP_MBMSServiceArea", T_RANAP_MBMSServiceArea);
    ("RANAP_MBMSSessionDuration", T_RANAP_MBMSSessionDuration);
    ("RANAP_MBMSSessionIdentity", T_RANAP_MBMSSessionIdentity);
    ("RANAP_MBMSSessionRepetitionNumber", T_RANAP_MBMSSessionRepetitionNumber);
    ("RANAP_MBMSSessionStart__mbmsSessionStart_ies_2", T_RANAP_MBMSSessionStart__mbmsSessionStart_ies_2);
    ("RANAP_MBMSSessionStart", T_RANAP_MBMSSessionStart);
    ("RANAP_MBMSSessionStartFailure__mbmsSessionStartFailure_ies_2", T_RANAP_MBMSSessionStartFailure__mbmsSessionStartFailure_ies_2);
    ("RANAP_MBMSSessionStartFailure", T_RANAP_MBMSSessionStartFailure);
    ("RANAP_MBMSSessionStartResponse__mbmsSessionStartResponse_ies_2", T_RANAP_MBMSSessionStartResponse__mbmsSessionStartResponse_ies_2);
    ("RANAP_MBMSSessionStartResponse", T_RANAP_MBMSSessionStartResponse);
    ("RANAP_MBMSSessionStop__mbmsSessionStop_ies_2", T_RANAP_MBMSSessionStop__mbmsSessionStop_ies_2);
    ("RANAP_MBMSSessionStop", T_RANAP_MBMSSessionStop);
    ("RANAP_MBMSSessionStopResponse__mbmsSessionStopResponse_ies_2", T_RANAP_MBMSSessionStopResponse__mbmsSessionStopResponse_ies_2);
    ("RANAP_MBMSSessionStopResponse", T_RANAP_MBMSSessionStopResponse);
    ("RANAP_MBMSSessionUpdate__mbmsSessionUpdate_ies_2", T_RANAP_MBMSSessionUpdate__mbmsSessionUpdate_ies_2);
    ("RANAP_MBMSSessionUpdate", T_RANAP_MBMSSessionUpdate);
    ("RANAP_MBMSSessionUpdateFailure__mbmsSessionUpdateFailure_ies_2", T_RANAP_MBMSSessionUpdateFailure__mbmsSessionUpdateFailure_ies_2);
    ("RANAP_MBMSSessionUpdateFailure", T_RANAP_MBMSSessionUpdateFailure);
    ("RANAP_MBMSSessionUpdateResponse__mbmsSessionUpdateResponse_ies_2", T_RANAP_MBMSSessionUpdateResponse__mbmsSessionUpdateResponse_ies_2);
    ("RANAP_MBMSSessionUpdateResponse", T_RANAP_MBMSSessionUpdateResponse);
    ("RANAP_MBMSSynchronisationInformation", T_RANAP_MBMSSynchronisationInformation);
    ("RANAP_MBMSUELinkingRequest__mbmsueLinkingRequest_ies_2", T_RANAP_MBMSUELinkingRequest__mbmsueLinkingRequest_ies_2);
    ("RANAP_MBMSUELinkingRequest", T_RANAP_MBMSUELinkingRequest);
    ("RANAP_MBMSUELinkingResponse__mbmsueLinkingResponse_ies_2", T_RANAP_MBMSUELinkingResponse__mbmsueLinkingResponse_ies_2);
    ("RANAP_MBMSUELinkingResponse", T_RANAP_MBMSUELinkingResponse);
    ("RANAP_MDT_Activation", T_RANAP_MDT_Activation);
    ("RANAP_RAI", T_RANAP_RAI);
    ("RANAP_RAI_List", T_RANAP_RAI_List);
    ("RANAP_RABased", T_RANAP_RABased);
    ("RANAP_MDTAreaScope", T_RANAP_MDTAreaScope);
    ("RANAP_MDTMode", T_RANAP_MDTMode);
    ("RANAP_MDT_Configuration", T_RANAP_MDT_Configuration);
    ("RANAP_MDT_PLMN_List", T_RANAP_MDT_PLMN_List);
    ("RANAP_MSISDN", T_RANAP_MSISDN);
    ("RANAP_Management_Based_MDT_Allowed", T_RANAP_Management_Based_MDT_Allowed);
    ("RANAP_MaxSDU_Size", T_RANAP_MaxSDU_Size);
    ("RANAP_RepetitionNumber1", T_RANAP_RepetitionNumber1);
    ("RANAP_MessageStructure_Value", T_RANAP_MessageStructure_Value);
    ("RANAP_MessageStructure", T_RANAP_MessageStructure);
    ("RANAP_NAS_SequenceNumber", T_RANAP_NAS_SequenceNumber);
    ("RANAP_NAS_SynchronisationIndicator", T_RANAP_NAS_SynchronisationIndicator);
    ("RANAP_NewBSS_To_OldBSS_Information", T_RANAP_NewBSS_To_OldBSS_Information);
    ("RANAP_NonSearchingIndication", T_RANAP_NonSearchingIndication);
    ("RANAP_RAofIdleModeUEs", T_RANAP_RAofIdleModeUEs);
    ("RANAP_NotEmptyRAListofIdleModeUEs", T_RANAP_NotEmptyRAListofIdleModeUEs);
    ("RANAP_NumberOfIuInstances", T_RANAP_NumberOfIuInstances);
    ("RANAP_NumberOfSteps", T_RANAP_NumberOfSteps);
    ("RANAP_OMC_ID", T_RANAP_OMC_ID);
    ("RANAP_Offload_RAB_Parameters_APN", T_RANAP_Offload_RAB_Parameters_APN);
    ("RANAP_Offload_RAB_Parameters_ChargingCharacteristics", T_RANAP_Offload_RAB_Parameters_ChargingCharacteristics);
    ("RANAP_Offload_RAB_Parameters", T_RANAP_Offload_RAB_Parameters);
    ("RANAP_OldBSS_ToNewBSS_Information", T_RANAP_OldBSS_ToNewBSS_Information);
    ("RANAP_Out_Of_UTRAN", T_RANAP_Out_Of_UTRAN);
    ("RANAP_Outcome", T_RANAP_Outcome);
    ("RANAP_Overload__overload_ies_2", T_RANAP_Overload__overload_ies_2);
    ("RANAP_Overload", T_RANAP_Overload);
    ("RANAP_P_TMSI", T_RANAP_P_TMSI);
    ("RANAP_PDP_Type_extension", T_RANAP_PDP_Type_extension);
    ("RANAP_PDP_Type", T_RANAP_PDP_Type);
    ("RANAP_PDP_TypeInformation_extension", T_RANAP_PDP_TypeInformation_extension);
    ("RANAP_PDP_TypeInformation", T_RANAP_PDP_TypeInformation);
    ("RANAP_PDUType14FrameSequenceNumber", T_RANAP_PDUType14FrameSequenceNumber);
    ("RANAP_PLMNs_in_shared_network_Value", T_RANAP_PLMNs_in_shared_network_Value);
    ("RANAP_PLMNs_in_shared_network", T_RANAP_PLMNs_in_shared_network);
    ("RANAP_Paging__paging_ies_2", T_RANAP_Paging__paging_ies_2);
    ("RANAP_Paging", T_RANAP_Paging);
    ("RANAP_PagingAreaID", T_RANAP_PagingAreaID);
    ("RANAP_PagingCause", T_RANAP_PagingCause);
    ("RANAP_Port_Number", T_RANAP_Port_Number);
    ("RANAP_PositioningDataDiscriminator", T_RANAP_PositioningDataDiscriminator);
    ("RANAP_PositioningMethodAndUsage", T_RANAP_PositioningMethodAndUsage);
    ("RANAP_PositioningDataSet", T_RANAP_PositioningDataSet);
    ("RANAP_PositionData", T_RANAP_PositionData);
    ("RANAP_PositionDataSpecificToGERANIuMode", T_RANAP_PositionDataSpecificToGERANIuMode);
    ("RANAP_Presence", T_RANAP_Presence);
    ("RANAP_Priority_Class_Indicator", T_RANAP_Priority_Class_Indicator);
    ("RANAP_PrivateIE_ID", T_RANAP_PrivateIE_ID);
    ("RANAP_PrivateMessage__privateMessage_ies_2", T_RANAP_PrivateMessage__privateMessage_ies_2);
    ("RANAP_PrivateMessage", T_RANAP_PrivateMessage);
    ("RANAP_ProtocolError_IE_ContainerList", T_RANAP_ProtocolError_IE_ContainerList);
    ("RANAP_ProtocolExtensionID", T_RANAP_ProtocolExtensionID);
    ("RANAP_ProtocolIE_FieldPair", T_RANAP_ProtocolIE_FieldPair);
    ("RANAP_ProtocolIE_ContainerPair", T_RANAP_ProtocolIE_ContainerPair);
    ("RANAP_Shared_Network_Information", T_RANAP_Shared_Network_Information);
    ("RANAP_ProvidedData", T_RANAP_ProvidedData);
    ("RANAP_RAB_AssignmentRequest__raB_AssignmentRequest_ies_2", T_RANAP_RAB_AssignmentRequest__raB_AssignmentRequest_ies_2);
    ("RANAP_RAB_AssignmentRequest", T_RANAP_RAB_AssignmentRequest);
    ("RANAP_RAB_AssignmentResponse__raB_AssignmentResponse_ies_2", T_RANAP_RAB_AssignmentResponse__raB_AssignmentResponse_ies_2);
    ("RANAP_RAB_AssignmentResponse", T_RANAP_RAB_AssignmentResponse);
    ("RANAP_RAB_AsymmetryIndicator", T_RANAP_RAB_AsymmetryIndicator);
    ("RANAP_UL_GTP_PDU_SequenceNumber", T_RANAP_UL_GTP_PDU_SequenceNumber);
    ("RANAP_UL_N_PDU_SequenceNumber", T_RANAP_UL_N_PDU_SequenceNumber);
    ("RANAP_RAB_ContextItem_RANAP_RelocInf", T_RANAP_RAB_ContextItem_RANAP_RelocInf);
    ("RANAP_RAB_ContextItem", T_RANAP_RAB_ContextItem);
    ("RANAP_RAB_ContextList_RANAP_RelocInf__raB_ContextList_RANAP_RelocInf_ies_2", T_RANAP_RAB_ContextList_RANAP_RelocInf__raB_ContextList_RANAP_RelocInf_ies_2);
    ("RANAP_RAB_ContextList_RANAP_RelocInf", T_RANAP_RAB_ContextList_RANAP_RelocInf);
    ("RANAP_RAB_ContextList__raB_ContextList_ies_2", T_RANAP_RAB_ContextList__raB_ContextList_ies_2);
    ("RANAP_RAB_ContextList", T_RANAP_RAB_ContextList);
    ("RANAP_RAB_DataForwardingItem_SRNS_CtxReq", T_RANAP_RAB_DataForwardingItem_SRNS_CtxReq);
    ("RANAP_TransportLayerAddress", T_RANAP_TransportLayerAddress);
    ("RANAP_RAB_DataForwardingItem", T_RANAP_RAB_DataForwardingItem);
    ("RANAP_RAB_DataForwardingList_SRNS_CtxReq__raB_DataForwardingList_SRNS_CtxReq_ies_2", T_RANAP_RAB_DataForwardingList_SRNS_CtxReq__raB_DataForwardingList_SRNS_CtxReq_ies_2);
    ("RANAP_RAB_DataForwardingList_SRNS_CtxReq", T_RANAP_RAB_DataForwardingList_SRNS_CtxReq);
    ("RANAP_RAB_DataForwardingList__raB_DataForwardingList_ies_2", T_RANAP_RAB_DataForwardingList__raB_DataForwardingList_ies_2);
    ("RANAP_RAB_DataForwardingList", T_RANAP_RAB_DataForwardingList);
    ("RANAP_RAB_DataVolumeReportItem", T_RANAP_RAB_DataVolumeReportItem);
    ("RANAP_RAB_DataVolumeReportList__raB_DataVolumeReportList_ies_2", T_RANAP_RAB_DataVolumeReportList__raB_DataVolumeReportList_ies_2);
    ("RANAP_RAB_DataVolumeReportList", T_RANAP_RAB_DataVolumeReportList);
    ("RANAP_RAB_DataVolumeReportRequestItem", T_RANAP_RAB_DataVolumeReportRequestItem);
    ("RANAP_RAB_DataVolumeReportRequestList__raB_DataVolumeReportRequestList_ies_2", T_RANAP_RAB_DataVolumeReportRequestList__raB_DataVolumeReportRequestList_ies_2);
    ("RANAP_RAB_DataVolumeReportRequestList", T_RANAP_RAB_DataVolumeReportRequestList);
    ("RANAP_RAB_FailedItem_EnhRelocInfoRes", T_RANAP_RAB_FailedItem_EnhRelocInfoRes);
    ("RANAP_RAB_FailedItem", T_RANAP_RAB_FailedItem);
    ("RANAP_RAB_FailedList_EnhRelocInfoRes__raB_FailedList_EnhRelocInfoRes_ies_2", T_RANAP_RAB_FailedList_EnhRelocInfoRes__raB_FailedList_EnhRelocInfoRes_ies_2);
    ("RANAP_RAB_FailedList_EnhRelocInfoRes", T_RANAP_RAB_FailedList_EnhRelocInfoRes);
    ("RANAP_RAB_FailedList__raB_FailedList_ies_2", T_RANAP_RAB_FailedList__raB_FailedList_ies_2);
    ("RANAP_RAB_FailedList", T_RANAP_RAB_FailedList);
    ("RANAP_RAB_IE_ContainerList", T_RANAP_RAB_IE_ContainerList);
    ("RANAP_RAB_IE_ContainerPairList", T_RANAP_RAB_IE_ContainerPairList);
    ("RANAP_Requested_RAB_Parameter_MaxBitrateList", T_RANAP_Requested_RAB_Parameter_MaxBitrateList);
    ("RANAP_Requested_RAB_Parameter_GuaranteedBitrateList", T_RANAP_Requested_RAB_Parameter_GuaranteedBitrateList);
    ("RANAP_Requested_RAB_Parameter_Values", T_RANAP_Requested_RAB_Parameter_Values);
    ("RANAP_RAB_ModifyItem", T_RANAP_RAB_ModifyItem);
    ("RANAP_RAB_ModifyList__raB_ModifyList_ies_2", T_RANAP_RAB_ModifyList__raB_ModifyList_ies_2);
    ("RANAP_RAB_ModifyList", T_RANAP_RAB_ModifyList);
    ("RANAP_RAB_ModifyRequest__raB_ModifyRequest_ies_2", T_RANAP_RAB_ModifyRequest__raB_ModifyRequest_ies_2);
    ("RANAP_RAB_ModifyRequest", T_RANAP_RAB_ModifyRequest);
    ("RANAP_RAB_Parameter_ExtendedGuaranteedBitrateList", T_RANAP_RAB_Parameter_ExtendedGuaranteedBitrateList);
    ("RANAP_RAB_Parameter_ExtendedMaxBitrateList", T_RANAP_RAB_Parameter_ExtendedMaxBitrateList);
    ("RANAP_RAB_Parameter_GuaranteedBitrateList", T_RANAP_RAB_Parameter_GuaranteedBitrateList);
    ("RANAP_RAB_Parameter_MaxBitrateList", T_RANAP_RAB_Parameter_MaxBitrateList);
    ("RANAP_TrafficClass", T_RANAP_TrafficClass);
    ("RANAP_SDU_ErrorRatio", T_RANAP_SDU_ErrorRatio);
    ("RANAP_ResidualBitErrorRatio", T_RANAP_ResidualBitErrorRatio);
    ("RANAP_SubflowSDU_Size", T_RANAP_SubflowSDU_Size);
    ("RANAP_RAB_SubflowCombinationBitRate", T_RANAP_RAB_SubflowCombinationBitRate);
    ("RANAP_SDU_FormatInformationParameterItem", T_RANAP_SDU_FormatInformationParameterItem);
    ("RANAP_SDU_FormatInformationParameters", T_RANAP_SDU_FormatInformationParameters);
    ("RANAP_SDU_ParameterItem", T_RANAP_SDU_ParameterItem);
    ("RANAP_SDU_Parameters", T_RANAP_SDU_Parameters);
    ("RANAP_TransferDelay", T_RANAP_TransferDelay);
    ("RANAP_TrafficHandlingPriority", T_RANAP_TrafficHandlingPriority);
    ("RANAP_SourceStatisticsDescriptor", T_RANAP_SourceStatisticsDescriptor);
    ("RANAP_RelocationRequirement", T_RANAP_RelocationRequirement);
    ("RANAP_RAB_Parameters", T_RANAP_RAB_Parameters);
    ("RANAP_RAB_QueuedItem", T_RANAP_RAB_QueuedItem);
    ("RANAP_RAB_QueuedList__raB_QueuedList_ies_2", T_RANAP_RAB_QueuedList__raB_QueuedList_ies_2);
    ("RANAP_RAB_QueuedList", T_RANAP_RAB_QueuedList);
    ("RANAP_RAB_ReleaseFailedList", T_RANAP_RAB_ReleaseFailedList);
    ("RANAP_RAB_ReleaseItem", T_RANAP_RAB_ReleaseItem);
    ("RANAP_RAB_ReleaseList__raB_ReleaseList_ies_2", T_RANAP_RAB_ReleaseList__raB_ReleaseList_ies_2);
    ("RANAP_RAB_ReleaseList", T_RANAP_RAB_ReleaseList);
    ("RANAP_RAB_ReleaseRequest__raB_ReleaseRequest_ies_2", T_RANAP_RAB_ReleaseRequest__raB_ReleaseRequest_ies_2);
    ("RANAP_RAB_ReleaseRequest", T_RANAP_RAB_ReleaseRequest);
    ("RANAP_RAB_ReleasedItem_IuRelComp", T_RANAP_RAB_ReleasedItem_IuRelComp);
    ("RANAP_RAB_ReleasedItem", T_RANAP_RAB_ReleasedItem);
    ("RANAP_RAB_ReleasedList_IuRelComp__raB_ReleasedList_IuRelComp_ies_2", T_RANAP_RAB_ReleasedList_IuRelComp__raB_ReleasedList_IuRelComp_ies_2);
    ("RANAP_RAB_ReleasedList_IuRelComp", T_RANAP_RAB_ReleasedList_IuRelComp);
    ("RANAP_RAB_ReleasedList__raB_ReleasedList_ies_2", T_RANAP_RAB_ReleasedList__raB_ReleasedList_ies_2);
    ("RANAP_RAB_ReleasedList", T_RANAP_RAB_ReleasedList);
    ("RANAP_RAB_RelocationReleaseItem", T_RANAP_RAB_RelocationReleaseItem);
    ("RANAP_RAB_RelocationReleaseList__raB_RelocationReleaseList_ies_2", T_RANAP_RAB_RelocationReleaseList__raB_RelocationReleaseList_ies_2);
    ("RANAP_RAB_RelocationReleaseList", T_RANAP_RAB_RelocationReleaseList);
    ("RANAP_UserPlaneMode", T_RANAP_UserPlaneMode);
    ("RANAP_UP_ModeVersions", T_RANAP_UP_ModeVersions);
    ("RANAP_UserPlaneInformation", T_RANAP_UserPlaneInformation);
    ("RANAP_TNLInformationEnhRelInfoReq", T_RANAP_TNLInformationEnhRelInfoReq);
    ("RANAP_Service_Handover", T_RANAP_Service_Handover);
    ("RANAP_RAB_SetupItem_EnhRelocInfoReq", T_RANAP_RAB_SetupItem_EnhRelocInfoReq);
    ("RANAP_TNLInformationEnhRelInfoRes", T_RANAP_TNLInformationEnhRelInfoRes);
    ("RANAP_RAB_SetupItem_EnhRelocInfoRes", T_RANAP_RAB_SetupItem_EnhRelocInfoRes);
    ("RANAP_RAB_SetupItem_EnhancedRelocCompleteReq", T_RANAP_RAB_SetupItem_EnhancedRelocCompleteReq);
    ("RANAP_RAB_ToBeReleasedList_EnhancedRelocCompleteRes__raB_ToBeReleasedList_EnhancedRelocCompleteRes_ies_2", T_RANAP_RAB_ToBeReleasedList_EnhancedRelocCompleteRes__raB_ToBeReleasedList_EnhancedRelocCompleteRes_ies_2);
    ("RANAP_RAB_ToBeReleasedList_EnhancedRelocCompleteRes", T_RANAP_RAB_ToBeReleasedList_EnhancedRelocCompleteRes);
    ("RANAP_RAB_SetupItem_EnhancedRelocCompleteRes", T_RANAP_RAB_SetupItem_EnhancedRelocCompleteRes);
    ("RANAP_RAB_SetupItem_RelocReq", T_RANAP_RAB_SetupItem_RelocReq);
    ("RANAP_RAB_SetupItem_RelocReqAck", T_RANAP_RAB_SetupItem_RelocReqAck);
    ("RANAP_RAB_SetupList_EnhRelocInfoReq__raB_SetupList_EnhRelocInfoReq_ies_2", T_RANAP_RAB_SetupList_EnhRelocInfoReq__raB_SetupList_EnhRelocInfoReq_ies_2);
    ("RANAP_RAB_SetupList_EnhRelocInfoReq", T_RANAP_RAB_SetupList_EnhRelocInfoReq);
    ("RANAP_RAB_SetupList_EnhRelocInfoRes__raB_SetupList_EnhRelocInfoRes_ies_2", T_RANAP_RAB_SetupList_EnhRelocInfoRes__raB_SetupList_EnhRelocInfoRes_ies_2);
    ("RANAP_RAB_SetupList_EnhRelocInfoRes", T_RANAP_RAB_SetupList_EnhRelocInfoRes);
    ("RANAP_RAB_SetupList_EnhancedRelocCompleteReq__raB_SetupList_EnhancedRelocCompleteReq_ies_2", T_RANAP_RAB_SetupList_EnhancedRelocCompleteReq__raB_SetupList_EnhancedRelocCompleteReq_ies_2);
    ("RANAP_RAB_SetupList_EnhancedRelocCompleteReq", T_RANAP_RAB_SetupList_EnhancedRelocCompleteReq);
    ("RANAP_RAB_SetupList_EnhancedRelocCompleteRes__raB_SetupList_EnhancedRelocCompleteRes_ies_2", T_RANAP_RAB_SetupList_EnhancedRelocCompleteRes__raB_SetupList_EnhancedRelocCompleteRes_ies_2);
    ("RANAP_RAB_SetupList_EnhancedRelocCompleteRes", T_RANAP_RAB_SetupList_EnhancedRelocCompleteRes);
    ("RANAP_RAB_SetupList_RelocReq__raB_SetupList_RelocReq_ies_2", T_RANAP_RAB_SetupList_RelocReq__raB_SetupList_RelocReq_ies_2);
    ("RANAP_RAB_SetupList_RelocReq", T_RANAP_RAB_SetupList_RelocReq);
    ("RANAP_RAB_SetupList_RelocReqAck__raB_SetupList_RelocReqAck_ies_2", T_RANAP_RAB_SetupList_RelocReqAck__raB_SetupList_RelocReqAck_ies_2);
    ("RANAP_RAB_SetupList_RelocReqAck", T_RANAP_RAB_SetupList_RelocReqAck);
    ("RANAP_RAB_SetupOrModifiedItem", T_RANAP_RAB_SetupOrModifiedItem);
    ("RANAP_RAB_SetupOrModifiedList__raB_SetupOrModifiedList_ies_2", T_RANAP_RAB_SetupOrModifiedList__raB_SetupOrModifiedList_ies_2);
    ("RANAP_RAB_SetupOrModifiedList", T_RANAP_RAB_SetupOrModifiedList);
    ("RANAP_TransportLayerInformation", T_RANAP_TransportLayerInformation);
    ("RANAP_RAB_SetupOrModifyItemFirst", T_RANAP_RAB_SetupOrModifyItemFirst);
    ("RANAP_RAB_SetupOrModifyItemSecond", T_RANAP_RAB_SetupOrModifyItemSecond);
    ("RANAP_RAB_SetupOrModifyList", T_RANAP_RAB_SetupOrModifyList);
    ("RANAP_RAB_ToBeReleasedItem_EnhancedRelocCompleteRes", T_RANAP_RAB_ToBeReleasedItem_EnhancedRelocCompleteRes);
    ("RANAP_USCH_ID", T_RANAP_USCH_ID);
    ("RANAP_TrCH_ID", T_RANAP_TrCH_ID);
    ("RANAP_TrCH_ID_List", T_RANAP_TrCH_ID_List);
    ("RANAP_RAB_TrCH_MappingItem", T_RANAP_RAB_TrCH_MappingItem);
    ("RANAP_RAB_TrCH_Mapping", T_RANAP_RAB_TrCH_Mapping);
    ("RANAP_RABDataVolumeReport_Value", T_RANAP_RABDataVolumeReport_Value);
    ("RANAP_RABDataVolumeReport", T_RANAP_RABDataVolumeReport);
    ("RANAP_UPInitialisationFrame", T_RANAP_UPInitialisationFrame);
    ("RANAP_UPInformation", T_RANAP_UPInformation);
    ("RANAP_RABParametersList_Value", T_RANAP_RABParametersList_Value);
    ("RANAP_RABParametersList", T_RANAP_RABParametersList);
    ("RANAP_RABs_ContextFailedtoTransferItem", T_RANAP_RABs_ContextFailedtoTransferItem);
    ("RANAP_RABs_ContextFailedtoTransferList__raBs_ContextFailedtoTransferList_ies_2", T_RANAP_RABs_ContextFailedtoTransferList__raBs_ContextFailedtoTransferList_ies_2);
    ("RANAP_RABs_ContextFailedtoTransferList", T_RANAP_RABs_ContextFailedtoTransferList);
    ("RANAP_RABs_failed_to_reportItem", T_RANAP_RABs_failed_to_reportItem);
    ("RANAP_RABs_failed_to_reportList__raBs_failed_to_reportList_ies_2", T_RANAP_RABs_failed_to_reportList__raBs_failed_to_reportList_ies_2);
    ("RANAP_RABs_failed_to_reportList", T_RANAP_RABs_failed_to_reportList);
    ("RANAP_RAListofIdleModeUEs__emptyFullRAListofIdleModeUEs_3", T_RANAP_RAListofIdleModeUEs__emptyFullRAListofIdleModeUEs_3);
    ("RANAP_RAListofIdleModeUEs", T_RANAP_RAListofIdleModeUEs);
    ("RANAP_RANAP_EnhancedRelocationInformationRequest__ranaP_EnhancedRelocationInformationRequest_ies_2", T_RANAP_RANAP_EnhancedRelocationInformationRequest__ranaP_EnhancedRelocationInformationRequest_ies_2);
    ("RANAP_RANAP_EnhancedRelocationInformationRequest", T_RANAP_RANAP_EnhancedRelocationInformationRequest);
    ("RANAP_RANAP_EnhancedRelocationInformationResponse__ranaP_EnhancedRelocationInformationResponse_ies_2", T_RANAP_RANAP_EnhancedRelocationInformationResponse__ranaP_EnhancedRelocationInformationResponse_ies_2);
    ("RANAP_RANAP_EnhancedRelocationInformationResponse", T_RANAP_RANAP_EnhancedRelocationInformationResponse);
    ("RANAP_SuccessfulOutcome", T_RANAP_SuccessfulOutcome);
    ("RANAP_UnsuccessfulOutcome", T_RANAP_UnsuccessfulOutcome);
    ("RANAP_RANAP_PDU", T_RANAP_RANAP_PDU);
    ("RANAP_RANAP_RelocationInformation__ranaP_RelocationInformation_ies_2", T_RANAP_RANAP_RelocationInformation__ranaP_RelocationInformation_ies_2);
    ("RANAP_RANAP_RelocationInformation", T_RANAP_RANAP_RelocationInformation);
    ("RANAP_RAT_Type", T_RANAP_RAT_Type);
    ("RANAP_UE_ID", T_RANAP_UE_ID);
    ("RANAP_TraceRecordingSessionReference", T_RANAP_TraceRecordingSessionReference);
    ("RANAP_TraceDepth", T_RANAP_TraceDepth);
    ("RANAP_TracePropagationParameters", T_RANAP_TracePropagationParameters);
    ("RANAP_TraceInformation", T_RANAP_TraceInformation);
    ("RANAP_RNSAPRelocationParameters", T_RANAP_RNSAPRelocationParameters);
    ("RANAP_RRC_Container", T_RANAP_RRC_Container);
    ("RANAP_RSRQ_Extension", T_RANAP_RSRQ_Extension);
    ("RANAP_RSRQ_Type", T_RANAP_RSRQ_Type);
    ("RANAP_RSRVCC_HO_Indication", T_RANAP_RSRVCC_HO_Indication);
    ("RANAP_RSRVCC_Information", T_RANAP_RSRVCC_Information);
    ("RANAP_RSRVCC_Operation_Possible", T_RANAP_RSRVCC_Operation_Possible);
    ("RANAP_RateControlAllowed", T_RANAP_RateControlAllowed);
    ("RANAP_RedirectAttemptFlag", T_RANAP_RedirectAttemptFlag);
    ("RANAP_RedirectionCompleted", T_RANAP_RedirectionCompleted);
    ("RANAP_RedirectionIndication__redirectionIndication_ies_2", T_RANAP_RedirectionIndication__redirectionIndication_ies_2);
    ("RANAP_RedirectionIndication", T_RANAP_RedirectionIndication);
    ("RANAP_RejectCauseValue", T_RANAP_RejectCauseValue);
    ("RANAP_RelocationCancel__relocationCancel_ies_2", T_RANAP_RelocationCancel__relocationCancel_ies_2);
    ("RANAP_RelocationCancel", T_RANAP_RelocationCancel);
    ("RANAP_RelocationCancelAcknowledge__relocationCancelAcknowledge_ies_2", T_RANAP_RelocationCancelAcknowledge__relocationCancelAcknowledge_ies_2);
    ("RANAP_RelocationCancelAcknowledge", T_RANAP_RelocationCancelAcknowledge);
    ("RANAP_RelocationCommand__relocationCommand_ies_2", T_RANAP_RelocationCommand__relocationCommand_ies_2);
    ("RANAP_RelocationCommand", T_RANAP_RelocationCommand);
    ("RANAP_RelocationComplete__relocationComplete_ies_2", T_RANAP_RelocationComplete__relocationComplete_ies_2);
    ("RANAP_RelocationComplete", T_RANAP_RelocationComplete);
    ("RANAP_RelocationDetect__relocationDetect_ies_2", T_RANAP_RelocationDetect__relocationDetect_ies_2);
    ("RANAP_RelocationDetect", T_RANAP_RelocationDetect);
    ("RANAP_RelocationFailure__relocationFailure_ies_2", T_RANAP_RelocationFailure__relocationFailure_ies_2);
    ("RANAP_RelocationFailure", T_RANAP_RelocationFailure);
    ("RANAP_RelocationPreparationFailure__relocationPreparationFailure_ies_2", T_RANAP_RelocationPreparationFailure__relocationPreparationFailure_ies_2);
    ("RANAP_RelocationPreparationFailure", T_RANAP_RelocationPreparationFailure);
    ("RANAP_RelocationRequest__relocationRequest_ies_2", T_RANAP_RelocationRequest__relocationRequest_ies_2);
    ("RANAP_RelocationRequest", T_RANAP_RelocationRequest);
    ("RANAP_RelocationRequestAcknowledge__relocationRequestAcknowledge_ies_2", T_RANAP_RelocationRequestAcknowledge__relocationRequestAcknowledge_ies_2);
    ("RANAP_RelocationRequestAcknowledge", T_RANAP_RelocationRequestAcknowledge);
    ("RANAP_RelocationRequired__relocationRequired_ies_2", T_RANAP_RelocationRequired__relocationRequired_ies_2);
    ("RANAP_RelocationRequired", T_RANAP_RelocationRequired);
    ("RANAP_RelocationType", T_RANAP_RelocationType);
    ("RANAP_ReportArea", T_RANAP_ReportArea);
    ("RANAP_RequestType", T_RANAP_RequestType);
    ("RANAP_Requested_RAB_Parameter_ExtendedGuaranteedBitrateList", T_RANAP_Requested_RAB_Parameter_ExtendedGuaranteedBitrateList);
    ("RANAP_Requested_RAB_Parameter_ExtendedMaxBitrateList", T_RANAP_Requested_RAB_Parameter_ExtendedMaxBitrateList);
    ("RANAP_RequestedGANSSAssistanceData", T_RANAP_RequestedGANSSAssistanceData);
    ("RANAP_Reset__reset_ies_2", T_RANAP_Reset__reset_ies_2);
    ("RANAP_Reset", T_RANAP_Reset);
    ("RANAP_ResetAcknowledge__resetAcknowledge_ies_2", T_RANAP_ResetAcknowledge__resetAcknowledge_ies_2);
    ("RANAP_ResetAcknowledge", T_RANAP_ResetAcknowledge);
    ("RANAP_ResetResource__resetResource_ies_2", T_RANAP_ResetResource__resetResource_ies_2);
    ("RANAP_ResetResource", T_RANAP_ResetResource);
    ("RANAP_ResetResourceAckItem", T_RANAP_ResetResourceAckItem);
    ("RANAP_ResetResourceAckList__resetResourceAckList_ies_2", T_RANAP_ResetResourceAckList__resetResourceAckList_ies_2);
    ("RANAP_ResetResourceAckList", T_RANAP_ResetResourceAckList);
    ("RANAP_ResetResourceAcknowledge__resetResourceAcknowledge_ies_2", T_RANAP_ResetResourceAcknowledge__resetResourceAcknowledge_ies_2);
    ("RANAP_ResetResourceAcknowledge", T_RANAP_ResetResourceAcknowledge);
    ("RANAP_ResetResourceItem", T_RANAP_ResetResourceItem);
    ("RANAP_ResetResourceList__resetResourceList_ies_2", T_RANAP_ResetResourceList__resetResourceList_ies_2);
    ("RANAP_ResetResourceList", T_RANAP_ResetResourceList);
    ("RANAP_SNA_Access_Information", T_RANAP_SNA_Access_Information);
    ("RANAP_SRB_ID", T_RANAP_SRB_ID);
    ("RANAP_SRB_TrCH_MappingItem", T_RANAP_SRB_TrCH_MappingItem);
    ("RANAP_SRB_TrCH_Mapping", T_RANAP_SRB_TrCH_Mapping);
    ("RANAP_SRNS_ContextRequest__srnS_ContextRequest_ies_2", T_RANAP_SRNS_ContextRequest__srnS_ContextRequest_ies_2);
    ("RANAP_SRNS_ContextRequest", T_RANAP_SRNS_ContextRequest);
    ("RANAP_SRNS_ContextResponse__srnS_ContextResponse_ies_2", T_RANAP_SRNS_ContextResponse__srnS_ContextResponse_ies_2);
    ("RANAP_SRNS_ContextResponse", T_RANAP_SRNS_ContextResponse);
    ("RANAP_SRNS_DataForwardCommand__srnS_DataForwardCommand_ies_2", T_RANAP_SRNS_DataForwardCommand__srnS_DataForwardCommand_ies_2);
    ("RANAP_SRNS_DataForwardCommand", T_RANAP_SRNS_DataForwardCommand);
    ("RANAP_SRVCC_CSKeysRequest__srvcC_CSKeysRequest_ies_2", T_RANAP_SRVCC_CSKeysRequest__srvcC_CSKeysRequest_ies_2);
    ("RANAP_SRVCC_CSKeysRequest", T_RANAP_SRVCC_CSKeysRequest);
    ("RANAP_SRVCC_CSKeysResponse__srvcC_CSKeysResponse_ies_2", T_RANAP_SRVCC_CSKeysResponse__srvcC_CSKeysResponse_ies_2);
    ("RANAP_SRVCC_CSKeysResponse", T_RANAP_SRVCC_CSKeysResponse);
    ("RANAP_SRVCC_HO_Indication", T_RANAP_SRVCC_HO_Indication);
    ("RANAP_SRVCC_Information", T_RANAP_SRVCC_Information);
    ("RANAP_SRVCC_Operation_Possible", T_RANAP_SRVCC_Operation_Possible);
    ("RANAP_SecurityModeCommand__securityModeCommand_ies_2", T_RANAP_SecurityModeCommand__securityModeCommand_ies_2);
    ("RANAP_SecurityModeCommand", T_RANAP_SecurityModeCommand);
    ("RANAP_SecurityModeComplete__securityModeComplete_ies_2", T_RANAP_SecurityModeComplete__securityModeComplete_ies_2);
    ("RANAP_SecurityModeComplete", T_RANAP_SecurityModeComplete);
    ("RANAP_SecurityModeReject__securityModeReject_ies_2", T_RANAP_SecurityModeReject__securityModeReject_ies_2);
    ("RANAP_SecurityModeReject", T_RANAP_SecurityModeReject);
    ("RANAP_Session_Re_establishment_Indicator", T_RANAP_Session_Re_establishment_Indicator);
    ("RANAP_SessionUpdateID", T_RANAP_SessionUpdateID);
    ("RANAP_SignallingIndication", T_RANAP_SignallingIndication);
    ("RANAP_Source_ToTarget_TransparentContainer", T_RANAP_Source_ToTarget_TransparentContainer);
    ("RANAP_SourceBSS_ToTargetBSS_TransparentContainer", T_RANAP_SourceBSS_ToTargetBSS_TransparentContainer);
    ("RANAP_SourceRNC_ID", T_RANAP_SourceRNC_ID);
    ("RANAP_SourceID", T_RANAP_SourceID);
    ("RANAP_SourceRNC_ToTargetRNC_TransparentContainer", T_RANAP_SourceRNC_ToTargetRNC_TransparentContainer);
    ("RANAP_SourceeNodeB_ToTargeteNodeB_TransparentContainer", T_RANAP_SourceeNodeB_ToTargeteNodeB_TransparentContainer);
    ("RANAP_SubscriberProfileIDforRFP", T_RANAP_SubscriberProfileIDforRFP);
    ("RANAP_TBCD_STRING", T_RANAP_TBCD_STRING);
    ("RANAP_TMSI", T_RANAP_TMSI);
    ("RANAP_Target_ToSource_TransparentContainer", T_RANAP_Target_ToSource_TransparentContainer);
    ("RANAP_TargetBSS_ToSourceBSS_TransparentContainer", T_RANAP_TargetBSS_ToSourceBSS_TransparentContainer);
    ("RANAP_TargetID", T_RANAP_TargetID);
    ("RANAP_TargetRNC_ToSourceRNC_TransparentContainer", T_RANAP_TargetRNC_ToSourceRNC_TransparentContainer);
    ("RANAP_TargeteNodeB_ToSourceeNodeB_TransparentContainer", T_RANAP_TargeteNodeB_ToSourceeNodeB_TransparentContainer);
    ("RANAP_TemporaryUE_ID", T_RANAP_TemporaryUE_ID);
    ("RANAP_Time_UE_StayedInCell_EnhancedGranularity", T_RANAP_Time_UE_StayedInCell_EnhancedGranularity);
    ("RANAP_TimeToMBMSDataTransfer", T_RANAP_TimeToMBMSDataTransfer);
    ("RANAP_TimingDifferenceULDL", T_RANAP_TimingDifferenceULDL);
    ("RANAP_TraceRecordingSessionInformation", T_RANAP_TraceRecordingSessionInformation);
    ("RANAP_TraceType", T_RANAP_TraceType);
    ("RANAP_TriggerID", T_RANAP_TriggerID);
    ("RANAP_TunnelInformation", T_RANAP_TunnelInformation);
    ("RANAP_TypeOfError", T_RANAP_TypeOfError);
    ("RANAP_UE_AggregateMaximumBitRateDownlink", T_RANAP_UE_AggregateMaximumBitRateDownlink);
    ("RANAP_UE_AggregateMaximumBitRateUplink", T_RANAP_UE_AggregateMaximumBitRateUplink);
    ("RANAP_UE_AggregateMaximumBitRate", T_RANAP_UE_AggregateMaximumBitRate);
    ("RANAP_UE_History_Information", T_RANAP_UE_History_Information);
    ("RANAP_UESBI_IuA", T_RANAP_UESBI_IuA);
    ("RANAP_UESBI_IuB", T_RANAP_UESBI_IuB);
    ("RANAP_UESBI_Iu", T_RANAP_UESBI_Iu);
    ("RANAP_UESpecificInformationIndication__ueSpecificInformationIndication_ies_2", T_RANAP_UESpecificInformationIndication__ueSpecificInformationIndication_ies_2);
    ("RANAP_UESpecificInformationIndication", T_RANAP_UESpecificInformationIndication);
    ("RANAP_UeRadioCapabilityMatchRequest__ueRadioCapabilityMatchRequest_ies_2", T_RANAP_UeRadioCapabilityMatchRequest__ueRadioCapabilityMatchRequest_ies_2);
    ("RANAP_UeRadioCapabilityMatchRequest", T_RANAP_UeRadioCapabilityMatchRequest);
    ("RANAP_UeRadioCapabilityMatchResponse__ueRadioCapabilityMatchResponse_ies_2", T_RANAP_UeRadioCapabilityMatchResponse__ueRadioCapabilityMatchResponse_ies_2);
    ("RANAP_UeRadioCapabilityMatchResponse", T_RANAP_UeRadioCapabilityMatchResponse);
    ("RANAP_UnsuccessfulLinking_IEs_Value", T_RANAP_UnsuccessfulLinking_IEs_Value);
    ("RANAP_UnsuccessfulLinking_IEs", T_RANAP_UnsuccessfulLinking_IEs);
    ("RANAP_UplinkInformationExchangeFailure__uplinkInformationExchangeFailure_ies_2", T_RANAP_UplinkInformationExchangeFailure__uplinkInformationExchangeFailure_ies_2);
    ("RANAP_UplinkInformationExchangeFailure", T_RANAP_UplinkInformationExchangeFailure);
    ("RANAP_UplinkInformationExchangeRequest__uplinkInformationExchangeRequest_ies_2", T_RANAP_UplinkInformationExchangeRequest__uplinkInformationExchangeRequest_ies_2);
    ("RANAP_UplinkInformationExchangeRequest", T_RANAP_UplinkInformationExchangeRequest);
    ("RANAP_UplinkInformationExchangeResponse__uplinkInformationExchangeResponse_ies_2", T_RANAP_UplinkInformationExchangeResponse__uplinkInformationExchangeResponse_ies_2);
    ("RANAP_UplinkInformationExchangeResponse", T_RANAP_UplinkInformationExchangeResponse);
    ("RANAP_VelocityEstimate", T_RANAP_VelocityEstimate);
    ("RANAP_VoiceSupportMatchIndicator", T_RANAP_VoiceSupportMatchIndicator) ].
