(* asn1/ranap/RANAP-PDU-Descriptions.asn: for every elementary procedure, its
   direction (1 initiating message, 2 successful outcome, 3 unsuccessful outcome,
   4 outcome), code, criticality and the object set of that message
   (RANAP-PDU-Contents.asn); privateMessage has none.  Read from the ASN.1 text. *)
From Verif Require Import Base.
From Coq Require Import String.
Local Open Scope string_scope.
(* RANAP-PDU-Descriptions.asn:1-618 *)
Definition ranap_procedures : list (N * N * Z * string) :=
  [ (1%N, 1%N, 0%Z, "Iu-ReleaseCommandIEs");
    (2%N, 1%N, 0%Z, "Iu-ReleaseCompleteIEs");
    (1%N, 2%N, 0%Z, "RelocationRequiredIEs");
    (2%N, 2%N, 0%Z, "RelocationCommandIEs");
    (3%N, 2%N, 0%Z, "RelocationPreparationFailureIEs");
    (1%N, 3%N, 0%Z, "RelocationRequestIEs");
    (2%N, 3%N, 0%Z, "RelocationRequestAcknowledgeIEs");
    (3%N, 3%N, 0%Z, "RelocationFailureIEs");
    (1%N, 4%N, 0%Z, "RelocationCancelIEs");
    (2%N, 4%N, 0%Z, "RelocationCancelAcknowledgeIEs");
    (1%N, 5%N, 0%Z, "SRNS-ContextRequestIEs");
    (2%N, 5%N, 0%Z, "SRNS-ContextResponseIEs");
    (1%N, 6%N, 0%Z, "SecurityModeCommandIEs");
    (2%N, 6%N, 0%Z, "SecurityModeCompleteIEs");
    (3%N, 6%N, 0%Z, "SecurityModeRejectIEs");
    (1%N, 7%N, 0%Z, "DataVolumeReportRequestIEs");
    (2%N, 7%N, 0%Z, "DataVolumeReportIEs");
    (1%N, 9%N, 0%Z, "ResetIEs");
    (2%N, 9%N, 0%Z, "ResetAcknowledgeIEs");
    (1%N, 10%N, 1%Z, "RAB-ReleaseRequestIEs");
    (1%N, 11%N, 1%Z, "Iu-ReleaseRequestIEs");
    (1%N, 12%N, 1%Z, "RelocationDetectIEs");
    (1%N, 13%N, 1%Z, "RelocationCompleteIEs");
    (1%N, 14%N, 1%Z, "PagingIEs");
    (1%N, 15%N, 1%Z, "CommonID-IEs");
    (1%N, 16%N, 1%Z, "CN-InvokeTraceIEs");
    (1%N, 26%N, 1%Z, "CN-DeactivateTraceIEs");
    (1%N, 17%N, 1%Z, "LocationReportingControlIEs");
    (1%N, 18%N, 1%Z, "LocationReportIEs");
    (1%N, 19%N, 1%Z, "InitialUE-MessageIEs");
    (1%N, 20%N, 1%Z, "DirectTransferIEs");
    (1%N, 21%N, 1%Z, "OverloadIEs");
    (1%N, 22%N, 1%Z, "ErrorIndicationIEs");
    (1%N, 23%N, 1%Z, "SRNS-DataForwardCommandIEs");
    (1%N, 24%N, 1%Z, "ForwardSRNS-ContextIEs");
    (1%N, 0%N, 0%Z, "RAB-AssignmentRequestIEs");
    (4%N, 0%N, 0%Z, "RAB-AssignmentResponseIEs");
    (1%N, 27%N, 0%Z, "ResetResourceIEs");
    (2%N, 27%N, 0%Z, "ResetResourceAcknowledgeIEs");
    (1%N, 28%N, 1%Z, "RANAP-RelocationInformationIEs");
    (1%N, 29%N, 1%Z, "RAB-ModifyRequestIEs");
    (1%N, 30%N, 0%Z, "LocationRelatedDataRequestIEs");
    (2%N, 30%N, 0%Z, "LocationRelatedDataResponseIEs");
    (3%N, 30%N, 0%Z, "LocationRelatedDataFailureIEs");
    (1%N, 31%N, 0%Z, "InformationTransferIndicationIEs");
    (2%N, 31%N, 0%Z, "InformationTransferConfirmationIEs");
    (3%N, 31%N, 0%Z, "InformationTransferFailureIEs");
    (1%N, 32%N, 1%Z, "UESpecificInformationIndicationIEs");
    (1%N, 34%N, 1%Z, "DirectInformationTransferIEs");
    (1%N, 33%N, 0%Z, "UplinkInformationExchangeRequestIEs");
    (2%N, 33%N, 0%Z, "UplinkInformationExchangeResponseIEs");
    (3%N, 33%N, 0%Z, "UplinkInformationExchangeFailureIEs");
    (1%N, 35%N, 0%Z, "MBMSSessionStartIEs");
    (2%N, 35%N, 0%Z, "MBMSSessionStartResponseIEs");
    (3%N, 35%N, 0%Z, "MBMSSessionStartFailureIEs");
    (1%N, 36%N, 0%Z, "MBMSSessionUpdateIEs");
    (2%N, 36%N, 0%Z, "MBMSSessionUpdateResponseIEs");
    (3%N, 36%N, 0%Z, "MBMSSessionUpdateFailureIEs");
    (1%N, 37%N, 0%Z, "MBMSSessionStopIEs");
    (2%N, 37%N, 0%Z, "MBMSSessionStopResponseIEs");
    (1%N, 38%N, 0%Z, "MBMSUELinkingRequestIEs");
    (4%N, 38%N, 0%Z, "MBMSUELinkingResponseIEs");
    (1%N, 39%N, 0%Z, "MBMSRegistrationRequestIEs");
    (2%N, 39%N, 0%Z, "MBMSRegistrationResponseIEs");
    (3%N, 39%N, 0%Z, "MBMSRegistrationFailureIEs");
    (1%N, 40%N, 0%Z, "MBMSCNDe-RegistrationRequestIEs");
    (2%N, 40%N, 0%Z, "MBMSCNDe-RegistrationResponseIEs");
    (1%N, 41%N, 1%Z, "MBMSRABEstablishmentIndicationIEs");
    (1%N, 42%N, 0%Z, "MBMSRABReleaseRequestIEs");
    (2%N, 42%N, 0%Z, "MBMSRABReleaseIEs");
    (3%N, 42%N, 0%Z, "MBMSRABReleaseFailureIEs");
    (1%N, 43%N, 0%Z, "EnhancedRelocationCompleteRequestIEs");
    (2%N, 43%N, 0%Z, "EnhancedRelocationCompleteResponseIEs");
    (3%N, 43%N, 0%Z, "EnhancedRelocationCompleteFailureIEs");
    (1%N, 44%N, 1%Z, "EnhancedRelocationCompleteConfirmIEs");
    (1%N, 45%N, 0%Z, "RANAP-EnhancedRelocationInformationRequestIEs");
    (2%N, 45%N, 0%Z, "RANAP-EnhancedRelocationInformationResponseIEs");
    (1%N, 46%N, 0%Z, "SRVCC-CSKeysRequestIEs");
    (4%N, 46%N, 0%Z, "SRVCC-CSKeysResponseIEs");
    (1%N, 47%N, 1%Z, "UeRadioCapabilityMatchRequestIEs");
    (4%N, 47%N, 1%Z, "UeRadioCapabilityMatchResponseIEs") ].
