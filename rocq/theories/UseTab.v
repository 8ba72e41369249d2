(* Generated by a script from the code written by hand in src/*.c and tests/hnb-test*.c: the calls
   with a type descriptor, the object they pass with it and how many times its address was taken
   or is its value an address.  The compiler does not check these: the parameters are void pointers. *)
From Coq Require Import String List.
Import ListNotations.
Local Open Scope string_scope.

(* a call that passes a type descriptor and an object: the function, the descriptor, the object (a
   variable of a type, or a member of a structure written by asn1tostruct.py) and how many pointers
   lead to it (src/iu_helpers.c:267, src/ranap_common.c:306) *)
Inductive object := OfType (t : string) | Member (s m : string).
Record use := Use { us_call : string; us_def : string; us_object : object; us_level : nat }.

Definition uses : list use := [
  (* src/iu_helpers.c:267 *) Use "ASN_STRUCT_FREE" "RANAP_TransportLayerInformation" (OfType "RANAP_TransportLayerInformation_t") 1;
  (* src/iu_helpers.c:287 *) Use "ASN_STRUCT_FREE" "RANAP_TransportLayerInformation" (OfType "RANAP_TransportLayerInformation_t") 1;
  (* src/ranap_common.c:306 *) Use "aper_encode_to_buffer" "RANAP_RANAP_PDU" (OfType "RANAP_RANAP_PDU_t") 1;
  (* src/ranap_common.c:339 *) Use "ASN_STRUCT_FREE_CONTENTS_ONLY" "RANAP_RANAP_PDU" (OfType "RANAP_RANAP_PDU_t") 1;
  (* src/ranap_common.c:366 *) Use "ASN_STRUCT_FREE_CONTENTS_ONLY" "RANAP_RANAP_PDU" (OfType "RANAP_RANAP_PDU_t") 1;
  (* src/ranap_common.c:393 *) Use "ASN_STRUCT_FREE_CONTENTS_ONLY" "RANAP_RANAP_PDU" (OfType "RANAP_RANAP_PDU_t") 1;
  (* src/ranap_common.c:420 *) Use "ASN_STRUCT_FREE_CONTENTS_ONLY" "RANAP_RANAP_PDU" (OfType "RANAP_RANAP_PDU_t") 1;
  (* src/ranap_common.c:449 *) Use "xer_fprint" "RANAP_IE" (OfType "RANAP_IE_t") 1;
  (* src/ranap_common.c:485 *) Use "ASN_STRUCT_FREE" "RANAP_ProtocolIE_FieldPair" (OfType "RANAP_ProtocolIE_FieldPair_t") 1;
  (* src/ranap_common.c:490 *) Use "xer_fprint" "RANAP_ProtocolIE_FieldPair" (OfType "RANAP_ProtocolIE_FieldPair_t") 1;
  (* src/ranap_common.c:491 *) Use "ASN_STRUCT_FREE" "RANAP_ProtocolIE_FieldPair" (OfType "RANAP_ProtocolIE_FieldPair_t") 1;
  (* src/ranap_common.c:572 *) Use "ANY_to_type_aper" "RANAP_RAB_SetupOrModifiedItem" (OfType "RANAP_RAB_SetupOrModifiedItem_t") 2;
  (* src/ranap_common.c:578 *) Use "xer_fprint" "RANAP_RAB_SetupOrModifiedItem" (OfType "RANAP_RAB_SetupOrModifiedItem_t") 1;
  (* src/ranap_common.c:595 *) Use "ANY_to_type_aper" "RANAP_RAB_FailedItem" (OfType "RANAP_RAB_FailedItem_t") 2;
  (* src/ranap_common.c:601 *) Use "xer_fprint" "RANAP_RAB_FailedItem" (OfType "RANAP_RAB_FailedItem_t") 1;
  (* src/ranap_common.c:618 *) Use "ANY_to_type_aper" "RANAP_RAB_ReleaseItem" (OfType "RANAP_RAB_ReleaseItem_t") 2;
  (* src/ranap_common.c:624 *) Use "xer_fprint" "RANAP_RAB_ReleaseItem" (OfType "RANAP_RAB_ReleaseItem_t") 1;
  (* src/ranap_common.c:641 *) Use "ANY_to_type_aper" "RANAP_RAB_ReleasedItem" (OfType "RANAP_RAB_ReleasedItem_t") 2;
  (* src/ranap_common.c:647 *) Use "xer_fprint" "RANAP_RAB_ReleasedItem" (OfType "RANAP_RAB_ReleasedItem_t") 1;
  (* src/ranap_common.c:666 *) Use "ANY_to_type_aper" "RANAP_RAB_SetupOrModifyItemFirst" (OfType "RANAP_RAB_SetupOrModifyItemFirst_t") 2;
  (* src/ranap_common.c:673 *) Use "xer_fprint" "RANAP_RAB_SetupOrModifyItemFirst" (OfType "RANAP_RAB_SetupOrModifyItemFirst_t") 1;
  (* src/ranap_common_cn.c:387 *) Use "aper_decode" "RANAP_RANAP_PDU" (OfType "RANAP_RANAP_PDU_t") 2;
  (* src/ranap_common_cn.c:399 *) Use "ASN_STRUCT_FREE" "RANAP_RANAP_PDU" (OfType "RANAP_RANAP_PDU_t") 1;
  (* src/ranap_common_cn.c:635 *) Use "aper_decode" "RANAP_RANAP_PDU" (OfType "RANAP_RANAP_PDU_t") 2;
  (* src/ranap_common_cn.c:647 *) Use "ASN_STRUCT_FREE" "RANAP_RANAP_PDU" (OfType "RANAP_RANAP_PDU_t") 1;
  (* src/ranap_common_ran.c:300 *) Use "aper_decode" "RANAP_RANAP_PDU" (OfType "RANAP_RANAP_PDU_t") 2;
  (* src/ranap_common_ran.c:312 *) Use "ASN_STRUCT_FREE" "RANAP_RANAP_PDU" (OfType "RANAP_RANAP_PDU_t") 1;
  (* src/ranap_msg_factory.c:81 *) Use "ranap_generate_initiating_message" "RANAP_Reset" (OfType "RANAP_Reset_t") 1;
  (* src/ranap_msg_factory.c:85 *) Use "ASN_STRUCT_FREE_CONTENTS_ONLY" "RANAP_Reset" (OfType "RANAP_Reset_t") 1;
  (* src/ranap_msg_factory.c:123 *) Use "ranap_generate_successful_outcome" "RANAP_ResetAcknowledge" (OfType "RANAP_ResetAcknowledge_t") 1;
  (* src/ranap_msg_factory.c:127 *) Use "ASN_STRUCT_FREE_CONTENTS_ONLY" "RANAP_ResetAcknowledge" (OfType "RANAP_ResetAcknowledge_t") 1;
  (* src/ranap_msg_factory.c:177 *) Use "ranap_generate_initiating_message" "RANAP_ErrorIndication" (OfType "RANAP_ErrorIndication_t") 1;
  (* src/ranap_msg_factory.c:181 *) Use "ASN_STRUCT_FREE_CONTENTS_ONLY" "RANAP_ErrorIndication" (OfType "RANAP_ErrorIndication_t") 1;
  (* src/ranap_msg_factory.c:225 *) Use "ranap_generate_initiating_message" "RANAP_InitialUE_Message" (OfType "RANAP_InitialUE_Message_t") 1;
  (* src/ranap_msg_factory.c:229 *) Use "ASN_STRUCT_FREE_CONTENTS_ONLY" "RANAP_InitialUE_Message" (OfType "RANAP_InitialUE_Message_t") 1;
  (* src/ranap_msg_factory.c:267 *) Use "ranap_generate_initiating_message" "RANAP_DirectTransfer" (OfType "RANAP_DirectTransfer_t") 1;
  (* src/ranap_msg_factory.c:271 *) Use "ASN_STRUCT_FREE_CONTENTS_ONLY" "RANAP_DirectTransfer" (OfType "RANAP_DirectTransfer_t") 1;
  (* src/ranap_msg_factory.c:353 *) Use "ASN_STRUCT_FREE_CONTENTS_ONLY" "RANAP_IntegrityProtectionInformation" (Member "RANAP_SecurityModeCommandIEs_t" "integrityProtectionInformation") 1;
  (* src/ranap_msg_factory.c:355 *) Use "ASN_STRUCT_FREE_CONTENTS_ONLY" "RANAP_EncryptionInformation" (Member "RANAP_SecurityModeCommandIEs_t" "encryptionInformation") 1;
  (* src/ranap_msg_factory.c:365 *) Use "ranap_generate_initiating_message" "RANAP_SecurityModeCommand" (OfType "RANAP_SecurityModeCommand_t") 1;
  (* src/ranap_msg_factory.c:369 *) Use "ASN_STRUCT_FREE_CONTENTS_ONLY" "RANAP_SecurityModeCommand" (OfType "RANAP_SecurityModeCommand_t") 1;
  (* src/ranap_msg_factory.c:405 *) Use "ranap_generate_successful_outcome" "RANAP_SecurityModeComplete" (OfType "RANAP_SecurityModeComplete_t") 1;
  (* src/ranap_msg_factory.c:409 *) Use "ASN_STRUCT_FREE_CONTENTS_ONLY" "RANAP_SecurityModeComplete" (OfType "RANAP_SecurityModeComplete_t") 1;
  (* src/ranap_msg_factory.c:438 *) Use "ASN_STRUCT_FREE_CONTENTS_ONLY" "RANAP_PermanentNAS_UE_ID" (Member "RANAP_CommonID_IEs_t" "permanentNAS_UE_ID") 1;
  (* src/ranap_msg_factory.c:448 *) Use "ranap_generate_initiating_message" "RANAP_CommonID" (OfType "RANAP_CommonID_t") 1;
  (* src/ranap_msg_factory.c:452 *) Use "ASN_STRUCT_FREE_CONTENTS_ONLY" "RANAP_CommonID" (OfType "RANAP_CommonID_t") 1;
  (* src/ranap_msg_factory.c:480 *) Use "ranap_generate_initiating_message" "RANAP_Iu_ReleaseCommand" (OfType "RANAP_Iu_ReleaseCommand_t") 1;
  (* src/ranap_msg_factory.c:484 *) Use "ASN_STRUCT_FREE_CONTENTS_ONLY" "RANAP_Iu_ReleaseCommand" (OfType "RANAP_Iu_ReleaseCommand_t") 1;
  (* src/ranap_msg_factory.c:510 *) Use "ranap_generate_successful_outcome" "RANAP_Iu_ReleaseComplete" (OfType "RANAP_Iu_ReleaseComplete_t") 1;
  (* src/ranap_msg_factory.c:514 *) Use "ASN_STRUCT_FREE_CONTENTS_ONLY" "RANAP_Iu_ReleaseComplete" (OfType "RANAP_Iu_ReleaseComplete_t") 1;
  (* src/ranap_msg_factory.c:563 *) Use "ASN_STRUCT_FREE_CONTENTS_ONLY" "RANAP_PermanentNAS_UE_ID" (Member "RANAP_PagingIEs_t" "permanentNAS_UE_ID") 1;
  (* src/ranap_msg_factory.c:564 *) Use "ASN_STRUCT_FREE_CONTENTS_ONLY" "RANAP_TemporaryUE_ID" (Member "RANAP_PagingIEs_t" "temporaryUE_ID") 1;
  (* src/ranap_msg_factory.c:574 *) Use "ranap_generate_initiating_message" "RANAP_Paging" (OfType "RANAP_Paging_t") 1;
  (* src/ranap_msg_factory.c:578 *) Use "ASN_STRUCT_FREE_CONTENTS_ONLY" "RANAP_Paging" (OfType "RANAP_Paging_t") 1;
  (* src/ranap_msg_factory.c:755 *) Use "ANY_fromType_aper" "RANAP_RAB_Parameter_ExtendedMaxBitrateList" (OfType "RANAP_RAB_Parameter_ExtendedMaxBitrateList_t") 1;
  (* src/ranap_msg_factory.c:757 *) Use "ASN_STRUCT_FREE" "RANAP_RAB_Parameter_ExtendedMaxBitrateList" (OfType "RANAP_RAB_Parameter_ExtendedMaxBitrateList_t") 1;
  (* src/ranap_msg_factory.c:834 *) Use "ranap_new_ie_pair" "RANAP_RAB_SetupOrModifyItemFirst" (OfType "RANAP_RAB_SetupOrModifyItemFirst_t") 1;
  (* src/ranap_msg_factory.c:836 *) Use "ranap_new_ie_pair" "RANAP_RAB_SetupOrModifyItemSecond" (OfType "RANAP_RAB_SetupOrModifyItemSecond_t") 1;
  (* src/ranap_msg_factory.c:839 *) Use "ASN_STRUCT_FREE_CONTENTS_ONLY" "RANAP_RAB_SetupOrModifyItemFirst" (OfType "RANAP_RAB_SetupOrModifyItemFirst_t") 1;
  (* src/ranap_msg_factory.c:840 *) Use "ASN_STRUCT_FREE_CONTENTS_ONLY" "RANAP_RAB_SetupOrModifyItemSecond" (OfType "RANAP_RAB_SetupOrModifyItemSecond_t") 1;
  (* src/ranap_msg_factory.c:851 *) Use "ASN_STRUCT_FREE_CONTENTS_ONLY" "RANAP_RAB_SetupOrModifyList" (Member "RANAP_RAB_AssignmentRequestIEs_t" "raB_SetupOrModifyList") 1;
  (* src/ranap_msg_factory.c:859 *) Use "ranap_generate_initiating_message" "RANAP_RAB_AssignmentRequest" (OfType "RANAP_RAB_AssignmentRequest_t") 1;
  (* src/ranap_msg_factory.c:862 *) Use "ASN_STRUCT_FREE_CONTENTS_ONLY" "RANAP_RAB_AssignmentRequest" (OfType "RANAP_RAB_AssignmentRequest_t") 1;
  (* src/ranap_msg_factory.c:914 *) Use "ranap_new_ie_pair" "RANAP_RAB_SetupOrModifyItemFirst" (OfType "RANAP_RAB_SetupOrModifyItemFirst_t") 1;
  (* src/ranap_msg_factory.c:916 *) Use "ranap_new_ie_pair" "RANAP_RAB_SetupOrModifyItemSecond" (OfType "RANAP_RAB_SetupOrModifyItemSecond_t") 1;
  (* src/ranap_msg_factory.c:920 *) Use "ASN_STRUCT_FREE_CONTENTS_ONLY" "RANAP_RAB_SetupOrModifyItemFirst" (OfType "RANAP_RAB_SetupOrModifyItemFirst_t") 1;
  (* src/ranap_msg_factory.c:921 *) Use "ASN_STRUCT_FREE_CONTENTS_ONLY" "RANAP_RAB_SetupOrModifyItemSecond" (OfType "RANAP_RAB_SetupOrModifyItemSecond_t") 1;
  (* src/ranap_msg_factory.c:933 *) Use "ASN_STRUCT_FREE_CONTENTS_ONLY" "RANAP_RAB_SetupOrModifyList" (Member "RANAP_RAB_AssignmentRequestIEs_t" "raB_SetupOrModifyList") 1;
  (* src/ranap_msg_factory.c:941 *) Use "ranap_generate_initiating_message" "RANAP_RAB_AssignmentRequest" (OfType "RANAP_RAB_AssignmentRequest_t") 1;
  (* src/ranap_msg_factory.c:944 *) Use "ASN_STRUCT_FREE_CONTENTS_ONLY" "RANAP_RAB_AssignmentRequest" (OfType "RANAP_RAB_AssignmentRequest_t") 1;
  (* src/ranap_msg_factory.c:965 *) Use "ASN_STRUCT_FREE_CONTENTS_ONLY" "RANAP_Iu_ReleaseRequest" (OfType "RANAP_Iu_ReleaseRequest_t") 1;
  (* src/ranap_msg_factory.c:972 *) Use "ranap_generate_initiating_message" "RANAP_Iu_ReleaseRequest" (OfType "RANAP_Iu_ReleaseRequest_t") 1;
  (* src/ranap_msg_factory.c:974 *) Use "ASN_STRUCT_FREE_CONTENTS_ONLY" "RANAP_Iu_ReleaseRequest" (OfType "RANAP_Iu_ReleaseRequest_t") 1;
  (* src/ranap_msg_factory.c:1000 *) Use "ASN_STRUCT_FREE_CONTENTS_ONLY" "RANAP_RAB_ReleaseItem" (Member "RANAP_RAB_ReleaseItemIEs_t" "raB_ReleaseItem") 1;
  (* src/ranap_msg_factory.c:1006 *) Use "ASN_STRUCT_FREE_CONTENTS_ONLY" "RANAP_RAB_ReleaseList" (Member "RANAP_RAB_ReleaseRequestIEs_t" "raB_ReleaseList") 1;
  (* src/ranap_msg_factory.c:1016 *) Use "ranap_generate_initiating_message" "RANAP_RAB_ReleaseRequest" (OfType "RANAP_RAB_ReleaseRequest_t") 1;
  (* src/ranap_msg_factory.c:1018 *) Use "ASN_STRUCT_FREE_CONTENTS_ONLY" "RANAP_RAB_ReleaseRequest" (OfType "RANAP_RAB_ReleaseRequest_t") 1;
  (* src/ranap_msg_factory.c:1075 *) Use "ASN_STRUCT_FREE_CONTENTS_ONLY" "RANAP_ResetResourceList" (Member "RANAP_ResetResourceIEs_t" "iuSigConIdList") 1;
  (* src/ranap_msg_factory.c:1085 *) Use "ranap_generate_initiating_message" "RANAP_ResetResource" (OfType "RANAP_ResetResource_t") 1;
  (* src/ranap_msg_factory.c:1087 *) Use "ASN_STRUCT_FREE_CONTENTS_ONLY" "RANAP_ResetResource" (OfType "RANAP_ResetResource_t") 1;
  (* src/rua_common.c:116 *) Use "aper_encode_to_buffer" "RUA_RUA_PDU" (OfType "RUA_RUA_PDU_t") 1;
  (* src/rua_common.c:151 *) Use "ASN_STRUCT_FREE_CONTENTS_ONLY" "RUA_RUA_PDU" (OfType "RUA_RUA_PDU_t") 1;
  (* src/rua_common.c:177 *) Use "ASN_STRUCT_FREE_CONTENTS_ONLY" "RUA_RUA_PDU" (OfType "RUA_RUA_PDU_t") 1;
  (* src/rua_common.c:203 *) Use "ASN_STRUCT_FREE_CONTENTS_ONLY" "RUA_RUA_PDU" (OfType "RUA_RUA_PDU_t") 1;
  (* src/rua_common.c:231 *) Use "xer_fprint" "RUA_IE" (OfType "RUA_IE_t") 1;
  (* src/rua_msg_factory.c:31 *) Use "rua_generate_initiating_message" "RUA_ConnectionlessTransfer" (OfType "RUA_ConnectionlessTransfer_t") 1;
  (* src/rua_msg_factory.c:34 *) Use "ASN_STRUCT_FREE_CONTENTS_ONLY" "RUA_ConnectionlessTransfer" (OfType "RUA_ConnectionlessTransfer_t") 1;
  (* src/rua_msg_factory.c:68 *) Use "rua_generate_initiating_message" "RUA_Connect" (OfType "RUA_Connect_t") 1;
  (* src/rua_msg_factory.c:71 *) Use "ASN_STRUCT_FREE_CONTENTS_ONLY" "RUA_Connect" (OfType "RUA_Connect_t") 1;
  (* src/rua_msg_factory.c:104 *) Use "rua_generate_initiating_message" "RUA_DirectTransfer" (OfType "RUA_DirectTransfer_t") 1;
  (* src/rua_msg_factory.c:107 *) Use "ASN_STRUCT_FREE_CONTENTS_ONLY" "RUA_DirectTransfer" (OfType "RUA_DirectTransfer_t") 1;
  (* src/rua_msg_factory.c:146 *) Use "rua_generate_initiating_message" "RUA_Disconnect" (OfType "RUA_Disconnect_t") 1;
  (* src/rua_msg_factory.c:149 *) Use "ASN_STRUCT_FREE_CONTENTS_ONLY" "RUA_Disconnect" (OfType "RUA_Disconnect_t") 1;
  (* src/hnbap_common.c:126 *) Use "aper_encode_to_buffer" "HNBAP_HNBAP_PDU" (OfType "HNBAP_HNBAP_PDU_t") 1;
  (* src/hnbap_common.c:160 *) Use "ASN_STRUCT_FREE_CONTENTS_ONLY" "HNBAP_HNBAP_PDU" (OfType "HNBAP_HNBAP_PDU_t") 1;
  (* src/hnbap_common.c:187 *) Use "ASN_STRUCT_FREE_CONTENTS_ONLY" "HNBAP_HNBAP_PDU" (OfType "HNBAP_HNBAP_PDU_t") 1;
  (* src/hnbap_common.c:214 *) Use "ASN_STRUCT_FREE_CONTENTS_ONLY" "HNBAP_HNBAP_PDU" (OfType "HNBAP_HNBAP_PDU_t") 1;
  (* src/hnbap_common.c:243 *) Use "xer_fprint" "HNBAP_IE" (OfType "HNBAP_IE_t") 1;
  (* src/sabp_common.c:89 *) Use "aper_encode_to_buffer" "SABP_SABP_PDU" (OfType "SABP_SABP_PDU_t") 1;
  (* src/sabp_common.c:122 *) Use "ASN_STRUCT_FREE_CONTENTS_ONLY" "SABP_SABP_PDU" (OfType "SABP_SABP_PDU_t") 1;
  (* src/sabp_common.c:149 *) Use "ASN_STRUCT_FREE_CONTENTS_ONLY" "SABP_SABP_PDU" (OfType "SABP_SABP_PDU_t") 1;
  (* src/sabp_common.c:176 *) Use "ASN_STRUCT_FREE_CONTENTS_ONLY" "SABP_SABP_PDU" (OfType "SABP_SABP_PDU_t") 1;
  (* src/sabp_common.c:204 *) Use "xer_fprint" "SABP_IE" (OfType "SABP_IE_t") 1;
  (* tests/hnb-test.c:139 *) Use "hnbap_generate_initiating_message" "HNBAP_UERegisterRequest" (OfType "HNBAP_UERegisterRequest_t") 1;
  (* tests/hnb-test.c:142 *) Use "ASN_STRUCT_FREE_CONTENTS_ONLY" "HNBAP_UERegisterRequest" (OfType "HNBAP_UERegisterRequest_t") 1;
  (* tests/hnb-test.c:479 *) Use "aper_decode" "HNBAP_HNBAP_PDU" (OfType "HNBAP_HNBAP_PDU_t") 2;
  (* tests/hnb-test.c:514 *) Use "aper_decode" "RUA_RUA_PDU" (OfType "RUA_RUA_PDU_t") 2;
  (* tests/hnb-test.c:690 *) Use "hnbap_generate_initiating_message" "HNBAP_HNBRegisterRequest" (OfType "HNBAP_HNBRegisterRequest_t") 1;
  (* tests/hnb-test.c:719 *) Use "hnbap_generate_initiating_message" "HNBAP_HNBDe_Register" (OfType "HNBAP_HNBDe_Register_t") 1 ].
