(* Generated by a script: the tables that asn1/utils/asn1tostruct.py reads from
   asn1/rua/RUA-PDU-Contents.asn with its regular expressions (lines 141-159), with
   the numbers of include/osmocom/rua/RUA_ProtocolIE-ID.h. *)
From Verif Require Import Base Aper Container RuaTypes.
From Coq Require Import String.
Local Open Scope string_scope.

(* asn1/rua/RUA-PDU-Contents.asn:68-75 ConnectIEs *)
Definition M_RUA_ConnectIEs : msgdef := mkMsg "RUA_" "ConnectIEs" T_RUA_Connect
  [ mkRow "id-CN-DomainIndicator" 7 0 "CN-DomainIndicator" T_RUA_CN_DomainIndicator Mandatory;
    mkRow "id-Context-ID" 3 0 "Context-ID" T_RUA_Context_ID Mandatory;
    mkRow "id-IntraDomainNasNodeSelector" 5 1 "IntraDomainNasNodeSelector" T_RUA_IntraDomainNasNodeSelector Optional;
    mkRow "id-Establishment-Cause" 6 0 "Establishment-Cause" T_RUA_Establishment_Cause Mandatory;
    mkRow "id-RANAP-Message" 4 0 "RANAP-Message" T_RUA_RANAP_Message Mandatory ].
(* asn1/rua/RUA-PDU-Contents.asn:95-100 DirectTransferIEs *)
Definition M_RUA_DirectTransferIEs : msgdef := mkMsg "RUA_" "DirectTransferIEs" T_RUA_DirectTransfer
  [ mkRow "id-CN-DomainIndicator" 7 0 "CN-DomainIndicator" T_RUA_CN_DomainIndicator Mandatory;
    mkRow "id-Context-ID" 3 0 "Context-ID" T_RUA_Context_ID Mandatory;
    mkRow "id-RANAP-Message" 4 0 "RANAP-Message" T_RUA_RANAP_Message Mandatory ].
(* asn1/rua/RUA-PDU-Contents.asn:120-127 DisconnectIEs *)
Definition M_RUA_DisconnectIEs : msgdef := mkMsg "RUA_" "DisconnectIEs" T_RUA_Disconnect
  [ mkRow "id-CN-DomainIndicator" 7 0 "CN-DomainIndicator" T_RUA_CN_DomainIndicator Mandatory;
    mkRow "id-Context-ID" 3 0 "Context-ID" T_RUA_Context_ID Mandatory;
    mkRow "id-Cause" 1 0 "Cause" T_RUA_Cause Mandatory;
    mkRow "id-RANAP-Message" 4 0 "RANAP-Message" T_RUA_RANAP_Message Conditional ].
(* asn1/rua/RUA-PDU-Contents.asn:145-148 ConnectionlessTransferIEs *)
Definition M_RUA_ConnectionlessTransferIEs : msgdef := mkMsg "RUA_" "ConnectionlessTransferIEs" T_RUA_ConnectionlessTransfer
  [ mkRow "id-RANAP-Message" 4 0 "RANAP-Message" T_RUA_RANAP_Message Mandatory ].
(* asn1/rua/RUA-PDU-Contents.asn:169-173 ErrorIndicationIEs *)
Definition M_RUA_ErrorIndicationIEs : msgdef := mkMsg "RUA_" "ErrorIndicationIEs" T_RUA_ErrorIndication
  [ mkRow "id-Cause" 1 1 "Cause" T_RUA_Cause Mandatory;
    mkRow "id-CriticalityDiagnostics" 2 1 "CriticalityDiagnostics" T_RUA_CriticalityDiagnostics Optional ].

(* all object sets of asn1/rua/RUA-PDU-Contents.asn, each at the lines cited above *)
Definition rua_msgs : list msgdef :=
  [ M_RUA_ConnectIEs;
    M_RUA_DirectTransferIEs;
    M_RUA_DisconnectIEs;
    M_RUA_ConnectionlessTransferIEs;
    M_RUA_ErrorIndicationIEs ].
