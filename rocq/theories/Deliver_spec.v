(* What the three receive functions accept: direction of the PDU (1 initiating
   message, 2 successful outcome, 3 unsuccessful outcome, 4 outcome), procedure
   code (asn1/ranap/RANAP-Constants.asn) and the grammar of the IEs. *)
From Coq Require Import String NArith List.
Import ListNotations.
Local Open Scope N_scope.
Local Open Scope string_scope.

(* the messages the CN accepts on a connection *)
Definition cn_connection : list (N * N * string) :=
  [ (1, 1, "Iu-ReleaseCommandIEs");
    (1, 2, "RelocationRequiredIEs");
    (1, 4, "RelocationCancelIEs");
    (1, 6, "SecurityModeCommandIEs");
    (1, 10, "RAB-ReleaseRequestIEs");
    (1, 11, "Iu-ReleaseRequestIEs");
    (1, 18, "LocationReportIEs");
    (1, 19, "InitialUE-MessageIEs");
    (1, 20, "DirectTransferIEs");
    (1, 22, "ErrorIndicationIEs");
    (1, 24, "ForwardSRNS-ContextIEs");
    (1, 29, "RAB-ModifyRequestIEs");
    (2, 0, "RAB-AssignmentResponseIEs");
    (2, 1, "Iu-ReleaseCompleteIEs");
    (2, 3, "RelocationRequestAcknowledgeIEs");
    (2, 5, "SRNS-ContextResponseIEs");
    (2, 6, "SecurityModeCompleteIEs");
    (2, 7, "DataVolumeReportIEs");
    (2, 30, "LocationRelatedDataResponseIEs");
    (3, 3, "RelocationFailureIEs");
    (3, 6, "SecurityModeRejectIEs");
    (3, 30, "LocationRelatedDataFailureIEs");
    (4, 0, "RAB-AssignmentResponseIEs") ].

(* the messages the CN decodes when they come without a connection *)
Definition cn_connectionless : list (N * N * string) :=
  [ (1, 9, "ResetIEs");
    (1, 14, "PagingIEs");
    (1, 21, "OverloadIEs");
    (1, 22, "ErrorIndicationIEs");
    (1, 27, "ResetResourceIEs");
    (1, 31, "InformationTransferIndicationIEs");
    (1, 33, "UplinkInformationExchangeRequestIEs");
    (1, 34, "DirectInformationTransferIEs");
    (2, 9, "ResetAcknowledgeIEs");
    (2, 27, "ResetResourceAcknowledgeIEs");
    (2, 31, "ResetResourceAcknowledgeIEs");
    (2, 33, "UplinkInformationExchangeResponseIEs");
    (2, 34, "InformationTransferConfirmationIEs") ].

(* the messages the RAN accepts on a connection *)
Definition ran_connection : list (N * N * string) :=
  [ (1, 0, "RAB-AssignmentRequestIEs");
    (1, 1, "Iu-ReleaseCommandIEs");
    (1, 3, "RelocationRequestIEs");
    (1, 5, "SRNS-ContextRequestIEs");
    (1, 6, "SecurityModeCommandIEs");
    (1, 7, "DataVolumeReportRequestIEs");
    (1, 15, "CommonID-IEs");
    (1, 16, "CN-InvokeTraceIEs");
    (1, 17, "LocationReportingControlIEs");
    (1, 20, "DirectTransferIEs");
    (1, 22, "ErrorIndicationIEs");
    (1, 23, "SRNS-DataForwardCommandIEs");
    (1, 24, "ForwardSRNS-ContextIEs");
    (1, 26, "CN-DeactivateTraceIEs");
    (1, 30, "LocationRelatedDataRequestIEs");
    (2, 2, "RelocationCommandIEs");
    (3, 2, "RelocationPreparationFailureIEs") ].
