(* Generated by a script: the tables that asn1/utils/asn1tostruct.py reads from
   asn1/sabp/SABP-PDU-Contents.asn with its regular expressions (lines 141-159), with
   the numbers of include/osmocom/sabp/SABP_ProtocolIE-ID.h. *)
From Verif Require Import Base Aper Container SabpTypes.
From Coq Require Import String.
Local Open Scope string_scope.

(* asn1/sabp/SABP-PDU-Contents.asn:74-87 Write-Replace-IEs *)
Definition M_SABP_Write_Replace_IEs : msgdef := mkMsg "SABP_" "Write-Replace-IEs" T_SABP_Write_Replace
  [ mkRow "id-Message-Identifier" 6 0 "Message-Identifier" T_SABP_Message_Identifier Mandatory;
    mkRow "id-New-Serial-Number" 7 0 "New-Serial-Number" T_SABP_New_Serial_Number Mandatory;
    mkRow "id-Old-Serial-Number" 10 1 "Old-Serial-Number" T_SABP_Old_Serial_Number Optional;
    mkRow "id-Service-Areas-List" 15 0 "Service-Areas-List" T_SABP_Service_Areas_List Mandatory;
    mkRow "id-Category" 1 1 "Category" T_SABP_Category Optional;
    mkRow "id-Repetition-Period" 13 0 "Repetition-Period" T_SABP_Repetition_Period Mandatory;
    mkRow "id-Data-Coding-Scheme" 4 0 "Data-Coding-Scheme" T_SABP_Data_Coding_Scheme Mandatory ].
(* asn1/sabp/SABP-PDU-Contents.asn:106-115 Write-Replace-Complete-IEs *)
Definition M_SABP_Write_Replace_Complete_IEs : msgdef := mkMsg "SABP_" "Write-Replace-Complete-IEs" T_SABP_Write_Replace_Complete
  [ mkRow "id-Message-Identifier" 6 0 "Message-Identifier" T_SABP_Message_Identifier Mandatory;
    mkRow "id-New-Serial-Number" 7 0 "New-Serial-Number" T_SABP_New_Serial_Number Mandatory ].
(* asn1/sabp/SABP-PDU-Contents.asn:129-139 Write-Replace-Failure-IEs *)
Definition M_SABP_Write_Replace_Failure_IEs : msgdef := mkMsg "SABP_" "Write-Replace-Failure-IEs" T_SABP_Write_Replace_Failure
  [ mkRow "id-Message-Identifier" 6 0 "Message-Identifier" T_SABP_Message_Identifier Mandatory;
    mkRow "id-New-Serial-Number" 7 0 "New-Serial-Number" T_SABP_New_Serial_Number Mandatory;
    mkRow "id-Failure-List" 5 0 "Failure-List" T_SABP_Failure_List Mandatory ].
(* asn1/sabp/SABP-PDU-Contents.asn:153-158 Kill-IEs *)
Definition M_SABP_Kill_IEs : msgdef := mkMsg "SABP_" "Kill-IEs" T_SABP_Kill
  [ mkRow "id-Message-Identifier" 6 0 "Message-Identifier" T_SABP_Message_Identifier Mandatory;
    mkRow "id-Old-Serial-Number" 10 0 "Old-Serial-Number" T_SABP_Old_Serial_Number Mandatory;
    mkRow "id-Service-Areas-List" 15 0 "Service-Areas-List" T_SABP_Service_Areas_List Mandatory ].
(* asn1/sabp/SABP-PDU-Contents.asn:172-181 Kill-Complete-IEs *)
Definition M_SABP_Kill_Complete_IEs : msgdef := mkMsg "SABP_" "Kill-Complete-IEs" T_SABP_Kill_Complete
  [ mkRow "id-Message-Identifier" 6 0 "Message-Identifier" T_SABP_Message_Identifier Mandatory;
    mkRow "id-Old-Serial-Number" 10 0 "Old-Serial-Number" T_SABP_Old_Serial_Number Mandatory ].
(* asn1/sabp/SABP-PDU-Contents.asn:195-205 Kill-Failure-IEs *)
Definition M_SABP_Kill_Failure_IEs : msgdef := mkMsg "SABP_" "Kill-Failure-IEs" T_SABP_Kill_Failure
  [ mkRow "id-Message-Identifier" 6 0 "Message-Identifier" T_SABP_Message_Identifier Mandatory;
    mkRow "id-Old-Serial-Number" 10 0 "Old-Serial-Number" T_SABP_Old_Serial_Number Mandatory;
    mkRow "id-Failure-List" 5 0 "Failure-List" T_SABP_Failure_List Mandatory ].
(* asn1/sabp/SABP-PDU-Contents.asn:219-222 Load-Query-IEs *)
Definition M_SABP_Load_Query_IEs : msgdef := mkMsg "SABP_" "Load-Query-IEs" T_SABP_Load_Query
  [ mkRow "id-Service-Areas-List" 15 0 "Service-Areas-List" T_SABP_Service_Areas_List Mandatory ].
(* asn1/sabp/SABP-PDU-Contents.asn:257-265 Load-Query-Failure-IEs *)
Definition M_SABP_Load_Query_Failure_IEs : msgdef := mkMsg "SABP_" "Load-Query-Failure-IEs" T_SABP_Load_Query_Failure
  [ mkRow "id-Failure-List" 5 0 "Failure-List" T_SABP_Failure_List Mandatory ].
(* asn1/sabp/SABP-PDU-Contents.asn:279-284 Message-Status-Query-IEs *)
Definition M_SABP_Message_Status_Query_IEs : msgdef := mkMsg "SABP_" "Message-Status-Query-IEs" T_SABP_Message_Status_Query
  [ mkRow "id-Message-Identifier" 6 0 "Message-Identifier" T_SABP_Message_Identifier Mandatory;
    mkRow "id-Old-Serial-Number" 10 0 "Old-Serial-Number" T_SABP_Old_Serial_Number Mandatory;
    mkRow "id-Service-Areas-List" 15 0 "Service-Areas-List" T_SABP_Service_Areas_List Mandatory ].
(* asn1/sabp/SABP-PDU-Contents.asn:298-307 Message-Status-Query-Complete-IEs *)
Definition M_SABP_Message_Status_Query_Complete_IEs : msgdef := mkMsg "SABP_" "Message-Status-Query-Complete-IEs" T_SABP_Message_Status_Query_Complete
  [ mkRow "id-Message-Identifier" 6 0 "Message-Identifier" T_SABP_Message_Identifier Mandatory;
    mkRow "id-Old-Serial-Number" 10 0 "Old-Serial-Number" T_SABP_Old_Serial_Number Mandatory ].
(* asn1/sabp/SABP-PDU-Contents.asn:321-331 Message-Status-Query-Failure-IEs *)
Definition M_SABP_Message_Status_Query_Failure_IEs : msgdef := mkMsg "SABP_" "Message-Status-Query-Failure-IEs" T_SABP_Message_Status_Query_Failure
  [ mkRow "id-Message-Identifier" 6 0 "Message-Identifier" T_SABP_Message_Identifier Mandatory;
    mkRow "id-Failure-List" 5 0 "Failure-List" T_SABP_Failure_List Mandatory;
    mkRow "id-Old-Serial-Number" 10 0 "Old-Serial-Number" T_SABP_Old_Serial_Number Mandatory ].
(* asn1/sabp/SABP-PDU-Contents.asn:345-348 Reset-IEs *)
Definition M_SABP_Reset_IEs : msgdef := mkMsg "SABP_" "Reset-IEs" T_SABP_Reset
  [ mkRow "id-Service-Areas-List" 15 0 "Service-Areas-List" T_SABP_Service_Areas_List Mandatory ].
(* asn1/sabp/SABP-PDU-Contents.asn:362-367 Reset-Complete-IEs *)
Definition M_SABP_Reset_Complete_IEs : msgdef := mkMsg "SABP_" "Reset-Complete-IEs" T_SABP_Reset_Complete
  [ mkRow "id-Service-Areas-List" 15 0 "Service-Areas-List" T_SABP_Service_Areas_List Mandatory ].
(* asn1/sabp/SABP-PDU-Contents.asn:381-387 Reset-Failure-IEs *)
Definition M_SABP_Reset_Failure_IEs : msgdef := mkMsg "SABP_" "Reset-Failure-IEs" T_SABP_Reset_Failure
  [ mkRow "id-Failure-List" 5 0 "Failure-List" T_SABP_Failure_List Mandatory;
    mkRow "id-Service-Areas-List" 15 0 "Service-Areas-List" T_SABP_Service_Areas_List Optional ].
(* asn1/sabp/SABP-PDU-Contents.asn:401-405 Restart-IEs *)
Definition M_SABP_Restart_IEs : msgdef := mkMsg "SABP_" "Restart-IEs" T_SABP_Restart
  [ mkRow "id-Service-Areas-List" 15 1 "Service-Areas-List" T_SABP_Service_Areas_List Mandatory;
    mkRow "id-Recovery-Indication" 12 1 "Recovery-Indication" T_SABP_Recovery_Indication Optional ].
(* asn1/sabp/SABP-PDU-Contents.asn:436-443 Error-Indication-IEs *)
Definition M_SABP_Error_Indication_IEs : msgdef := mkMsg "SABP_" "Error-Indication-IEs" T_SABP_Error_Indication
  [ mkRow "id-Message-Identifier" 6 1 "Message-Identifier" T_SABP_Message_Identifier Optional;
    mkRow "id-Serial-Number" 14 1 "Serial-Number" T_SABP_Serial_Number Optional;
    mkRow "id-Cause" 2 1 "Cause" T_SABP_Cause Optional ].

(* all object sets of asn1/sabp/SABP-PDU-Contents.asn, each at the lines cited above *)
Definition sabp_msgs : list msgdef :=
  [ M_SABP_Write_Replace_IEs;
    M_SABP_Write_Replace_Complete_IEs;
    M_SABP_Write_Replace_Failure_IEs;
    M_SABP_Kill_IEs;
    M_SABP_Kill_Complete_IEs;
    M_SABP_Kill_Failure_IEs;
    M_SABP_Load_Query_IEs;
    M_SABP_Load_Query_Failure_IEs;
    M_SABP_Message_Status_Query_IEs;
    M_SABP_Message_Status_Query_Complete_IEs;
    M_SABP_Message_Status_Query_Failure_IEs;
    M_SABP_Reset_IEs;
    M_SABP_Reset_Complete_IEs;
    M_SABP_Reset_Failure_IEs;
    M_SABP_Restart_IEs;
    M_SABP_Error_Indication_IEs ].
