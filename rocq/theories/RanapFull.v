(* Generated by a script from the unabridged modules of TS 25.413 in asn1/ranap/, which the
   build does not compile (RANAP-Containers.asn, RANAP-PDU-Contents.asn and
   RANAP-PDU-Descriptions.asn): each entry is one type assignment, with the line.
   A reference to a parameterised type stands for that type with the bounds it is
   given; its information object set is left out, and a component whose type depends
   on it is an open type.  The types that RANAP-CommonDataTypes.asn and RANAP-IEs.asn
   define, and the type IE they use, are those of RanapAsn. *)
From Verif Require Import Base Asn1_spec Container RanapAsn.
From Coq Require Import String List.
Import ListNotations.
Local Open Scope Z_scope.
Local Open Scope string_scope.
Local Open Scope list_scope.

Definition ranap_contents : list (string * asn) := [
  (* RANAP-Containers.asn:120 *)
  ("ProtocolIE-Container",
    (ASeqOf (Some (Rng (Num (0)) (Cst "maxProtocolIEs") false)) (ARef "ProtocolIE-Field")));
  (* RANAP-Containers.asn:124 *)
  ("ProtocolIE-Field",
    (ASeq false [("id", (false, (ARef "ProtocolIE-ID")));
      ("criticality", (false, (ARef "Criticality")));
      ("value", (false, AAny))] []));
  (* RANAP-Containers.asn:136 *)
  ("ProtocolIE-ContainerPair",
    (ASeqOf (Some (Rng (Num (0)) (Cst "maxProtocolIEs") false)) (ARef "ProtocolIE-FieldPair")));
  (* RANAP-Containers.asn:140 *)
  ("ProtocolIE-FieldPair",
    (ASeq false [("id", (false, (ARef "ProtocolIE-ID")));
      ("firstCriticality", (false, (ARef "Criticality")));
      ("firstValue", (false, AAny));
      ("secondCriticality", (false, (ARef "Criticality")));
      ("secondValue", (false, AAny))] []));
  (* RANAP-Containers.asn:168 *)
  ("ProtocolExtensionContainer",
    (ASeqOf (Some (Rng (Num (1)) (Cst "maxProtocolExtensions") false)) (ARef "ProtocolExtensionField")));
  (* RANAP-Containers.asn:172 *)
  ("ProtocolExtensionField",
    (ASeq false [("id", (false, (ARef "ProtocolExtensionID")));
      ("criticality", (false, (ARef "Criticality")));
      ("extensionValue", (false, AAny))] []));
  (* RANAP-Containers.asn:184 *)
  ("PrivateIE-Container",
    (ASeqOf (Some (Rng (Num (1)) (Cst "maxPrivateIEs") false)) (ARef "PrivateIE-Field")));
  (* RANAP-Containers.asn:188 *)
  ("PrivateIE-Field",
    (ASeq false [("id", (false, (ARef "PrivateIE-ID")));
      ("criticality", (false, (ARef "Criticality")));
      ("value", (false, AAny))] []));
  (* RANAP-PDU-Contents.asn:446 *)
  ("Iu-ReleaseCommand",
    (ASeq true [("protocolIEs", (false, (ARef "ProtocolIE-Container")));
      ("protocolExtensions", (true, (ARef "ProtocolExtensionContainer")))] []));
  (* RANAP-PDU-Contents.asn:470 *)
  ("Iu-ReleaseComplete",
    (ASeq true [("protocolIEs", (false, (ARef "ProtocolIE-Container")));
      ("protocolExtensions", (true, (ARef "ProtocolExtensionContainer")))] []));
  (* RANAP-PDU-Contents.asn:483 *)
  ("RAB-DataVolumeReportList",
    (ASeqOf (Some (Rng (Num (1)) (Cst "maxNrOfRABs") false)) (ARef "ProtocolIE-Container")));
  (* RANAP-PDU-Contents.asn:490 *)
  ("RAB-DataVolumeReportItem",
    (ASeq true [("rAB-ID", (false, (ARef "RAB-ID")));
      ("dl-UnsuccessfullyTransmittedDataVolume", (true, (ARef "DataVolumeList")));
      ("iE-Extensions", (true, (ARef "ProtocolExtensionContainer")))] []));
  (* RANAP-PDU-Contents.asn:502 *)
  ("RAB-ReleasedList-IuRelComp",
    (ASeqOf (Some (Rng (Num (1)) (Cst "maxNrOfRABs") false)) (ARef "ProtocolIE-Container")));
  (* RANAP-PDU-Contents.asn:509 *)
  ("RAB-ReleasedItem-IuRelComp",
    (ASeq true [("rAB-ID", (false, (ARef "RAB-ID")));
      ("dL-GTP-PDU-SequenceNumber", (true, (ARef "DL-GTP-PDU-SequenceNumber")));
      ("uL-GTP-PDU-SequenceNumber", (true, (ARef "UL-GTP-PDU-SequenceNumber")));
      ("iE-Extensions", (true, (ARef "ProtocolExtensionContainer")))] []));
  (* RANAP-PDU-Contents.asn:538 *)
  ("RelocationRequired",
    (ASeq true [("protocolIEs", (false, (ARef "ProtocolIE-Container")));
      ("protocolExtensions", (true, (ARef "ProtocolExtensionContainer")))] []));
  (* RANAP-PDU-Contents.asn:581 *)
  ("RelocationCommand",
    (ASeq true [("protocolIEs", (false, (ARef "ProtocolIE-Container")));
      ("protocolExtensions", (true, (ARef "ProtocolExtensionContainer")))] []));
  (* RANAP-PDU-Contents.asn:597 *)
  ("RAB-RelocationReleaseList",
    (ASeqOf (Some (Rng (Num (1)) (Cst "maxNrOfRABs") false)) (ARef "ProtocolIE-Container")));
  (* RANAP-PDU-Contents.asn:604 *)
  ("RAB-RelocationReleaseItem",
    (ASeq true [("rAB-ID", (false, (ARef "RAB-ID")));
      ("iE-Extensions", (true, (ARef "ProtocolExtensionContainer")))] []));
  (* RANAP-PDU-Contents.asn:614 *)
  ("RAB-DataForwardingList",
    (ASeqOf (Some (Rng (Num (1)) (Cst "maxNrOfRABs") false)) (ARef "ProtocolIE-Container")));
  (* RANAP-PDU-Contents.asn:621 *)
  ("RAB-DataForwardingItem",
    (ASeq true [("rAB-ID", (false, (ARef "RAB-ID")));
      ("transportLayerAddress", (false, (ARef "TransportLayerAddress")));
      ("iuTransportAssociation", (false, (ARef "IuTransportAssociation")));
      ("iE-Extensions", (true, (ARef "ProtocolExtensionContainer")))] []));
  (* RANAP-PDU-Contents.asn:654 *)
  ("RelocationPreparationFailure",
    (ASeq true [("protocolIEs", (false, (ARef "ProtocolIE-Container")));
      ("protocolExtensions", (true, (ARef "ProtocolExtensionContainer")))] []));
  (* RANAP-PDU-Contents.asn:684 *)
  ("RelocationRequest",
    (ASeq true [("protocolIEs", (false, (ARef "ProtocolIE-Container")));
      ("protocolExtensions", (true, (ARef "ProtocolExtensionContainer")))] []));
  (* RANAP-PDU-Contents.asn:702 *)
  ("RAB-SetupList-RelocReq",
    (ASeqOf (Some (Rng (Num (1)) (Cst "maxNrOfRABs") false)) (ARef "ProtocolIE-Container")));
  (* RANAP-PDU-Contents.asn:709 *)
  ("RAB-SetupItem-RelocReq",
    (ASeq true [("rAB-ID", (false, (ARef "RAB-ID")));
      ("nAS-SynchronisationIndicator", (true, (ARef "NAS-SynchronisationIndicator")));
      ("rAB-Parameters", (false, (ARef "RAB-Parameters")));
      ("dataVolumeReportingIndication", (true, (ARef "DataVolumeReportingIndication")));
      ("pDP-TypeInformation", (true, (ARef "PDP-TypeInformation")));
      ("userPlaneInformation", (false, (ARef "UserPlaneInformation")));
      ("transportLayerAddress", (false, (ARef "TransportLayerAddress")));
      ("iuTransportAssociation", (false, (ARef "IuTransportAssociation")));
      ("service-Handover", (true, (ARef "Service-Handover")));
      ("iE-Extensions", (true, (ARef "ProtocolExtensionContainer")))] []));
  (* RANAP-PDU-Contents.asn:739 *)
  ("UserPlaneInformation",
    (ASeq true [("userPlaneMode", (false, (ARef "UserPlaneMode")));
      ("uP-ModeVersions", (false, (ARef "UP-ModeVersions")));
      ("iE-Extensions", (true, (ARef "ProtocolExtensionContainer")))] []));
  (* RANAP-PDU-Contents.asn:773 *)
  ("CNMBMSLinkingInformation",
    (ASeq true [("joinedMBMSBearerService-IEs", (false, (ARef "JoinedMBMSBearerService-IEs")));
      ("iE-Extensions", (true, (ARef "ProtocolExtensionContainer")))] []));
  (* RANAP-PDU-Contents.asn:783 *)
  ("JoinedMBMSBearerService-IEs",
    (ASeqOf (Some (Rng (Num (1)) (Cst "maxnoofMulticastServicesPerUE") false)) (ARef "JoinedMBMSBearerService-IEs-Value")));
  (* RANAP-PDU-Contents.asn:784 *)
  ("JoinedMBMSBearerService-IEs-Value",
    (ASeq true [("tMGI", (false, (ARef "TMGI")));
      ("mBMS-PTP-RAB-ID", (false, (ARef "MBMS-PTP-RAB-ID")));
      ("iE-Extensions", (true, (ARef "ProtocolExtensionContainer")))] []));
  (* RANAP-PDU-Contents.asn:802 *)
  ("RelocationRequestAcknowledge",
    (ASeq true [("protocolIEs", (false, (ARef "ProtocolIE-Container")));
      ("protocolExtensions", (true, (ARef "ProtocolExtensionContainer")))] []));
  (* RANAP-PDU-Contents.asn:818 *)
  ("RAB-SetupList-RelocReqAck",
    (ASeqOf (Some (Rng (Num (1)) (Cst "maxNrOfRABs") false)) (ARef "ProtocolIE-Container")));
  (* RANAP-PDU-Contents.asn:825 *)
  ("RAB-SetupItem-RelocReqAck",
    (ASeq true [("rAB-ID", (false, (ARef "RAB-ID")));
      ("transportLayerAddress", (true, (ARef "TransportLayerAddress")));
      ("iuTransportAssociation", (true, (ARef "IuTransportAssociation")));
      ("iE-Extensions", (true, (ARef "ProtocolExtensionContainer")))] []));
  (* RANAP-PDU-Contents.asn:842 *)
  ("RAB-FailedList",
    (ASeqOf (Some (Rng (Num (1)) (Cst "maxNrOfRABs") false)) (ARef "ProtocolIE-Container")));
  (* RANAP-PDU-Contents.asn:849 *)
  ("RAB-FailedItem",
    (ASeq true [("rAB-ID", (false, (ARef "RAB-ID")));
      ("cause", (false, (ARef "Cause")));
      ("iE-Extensions", (true, (ARef "ProtocolExtensionContainer")))] []));
  (* RANAP-PDU-Contents.asn:873 *)
  ("RelocationFailure",
    (ASeq true [("protocolIEs", (false, (ARef "ProtocolIE-Container")));
      ("protocolExtensions", (true, (ARef "ProtocolExtensionContainer")))] []));
  (* RANAP-PDU-Contents.asn:905 *)
  ("RelocationCancel",
    (ASeq true [("protocolIEs", (false, (ARef "ProtocolIE-Container")));
      ("protocolExtensions", (true, (ARef "ProtocolExtensionContainer")))] []));
  (* RANAP-PDU-Contents.asn:926 *)
  ("RelocationCancelAcknowledge",
    (ASeq true [("protocolIEs", (false, (ARef "ProtocolIE-Container")));
      ("protocolExtensions", (true, (ARef "ProtocolExtensionContainer")))] []));
  (* RANAP-PDU-Contents.asn:953 *)
  ("SRNS-ContextRequest",
    (ASeq true [("protocolIEs", (false, (ARef "ProtocolIE-Container")));
      ("protocolExtensions", (true, (ARef "ProtocolExtensionContainer")))] []));
  (* RANAP-PDU-Contents.asn:964 *)
  ("RAB-DataForwardingList-SRNS-CtxReq",
    (ASeqOf (Some (Rng (Num (1)) (Cst "maxNrOfRABs") false)) (ARef "ProtocolIE-Container")));
  (* RANAP-PDU-Contents.asn:971 *)
  ("RAB-DataForwardingItem-SRNS-CtxReq",
    (ASeq true [("rAB-ID", (false, (ARef "RAB-ID")));
      ("iE-Extensions", (true, (ARef "ProtocolExtensionContainer")))] []));
  (* RANAP-PDU-Contents.asn:993 *)
  ("SRNS-ContextResponse",
    (ASeq true [("protocolIEs", (false, (ARef "ProtocolIE-Container")));
      ("protocolExtensions", (true, (ARef "ProtocolExtensionContainer")))] []));
  (* RANAP-PDU-Contents.asn:1006 *)
  ("RAB-ContextList",
    (ASeqOf (Some (Rng (Num (1)) (Cst "maxNrOfRABs") false)) (ARef "ProtocolIE-Container")));
  (* RANAP-PDU-Contents.asn:1013 *)
  ("RAB-ContextItem",
    (ASeq true [("rAB-ID", (false, (ARef "RAB-ID")));
      ("dl-GTP-PDU-SequenceNumber", (true, (ARef "DL-GTP-PDU-SequenceNumber")));
      ("ul-GTP-PDU-SequenceNumber", (true, (ARef "UL-GTP-PDU-SequenceNumber")));
      ("dl-N-PDU-SequenceNumber", (true, (ARef "DL-N-PDU-SequenceNumber")));
      ("ul-N-PDU-SequenceNumber", (true, (ARef "UL-N-PDU-SequenceNumber")));
      ("iE-Extensions", (true, (ARef "ProtocolExtensionContainer")))] []));
  (* RANAP-PDU-Contents.asn:1027 *)
  ("RABs-ContextFailedtoTransferList",
    (ASeqOf (Some (Rng (Num (1)) (Cst "maxNrOfRABs") false)) (ARef "ProtocolIE-Container")));
  (* RANAP-PDU-Contents.asn:1034 *)
  ("RABs-ContextFailedtoTransferItem",
    (ASeq true [("rAB-ID", (false, (ARef "RAB-ID")));
      ("cause", (false, (ARef "Cause")));
      ("iE-Extensions", (true, (ARef "ProtocolExtensionContainer")))] []));
  (* RANAP-PDU-Contents.asn:1062 *)
  ("SecurityModeCommand",
    (ASeq true [("protocolIEs", (false, (ARef "ProtocolIE-Container")));
      ("protocolExtensions", (true, (ARef "ProtocolExtensionContainer")))] []));
  (* RANAP-PDU-Contents.asn:1085 *)
  ("SecurityModeComplete",
    (ASeq true [("protocolIEs", (false, (ARef "ProtocolIE-Container")));
      ("protocolExtensions", (true, (ARef "ProtocolExtensionContainer")))] []));
  (* RANAP-PDU-Contents.asn:1108 *)
  ("SecurityModeReject",
    (ASeq true [("protocolIEs", (false, (ARef "ProtocolIE-Container")));
      ("protocolExtensions", (true, (ARef "ProtocolExtensionContainer")))] []));
  (* RANAP-PDU-Contents.asn:1136 *)
  ("DataVolumeReportRequest",
    (ASeq true [("protocolIEs", (false, (ARef "ProtocolIE-Container")));
      ("protocolExtensions", (true, (ARef "ProtocolExtensionContainer")))] []));
  (* RANAP-PDU-Contents.asn:1147 *)
  ("RAB-DataVolumeReportRequestList",
    (ASeqOf (Some (Rng (Num (1)) (Cst "maxNrOfRABs") false)) (ARef "ProtocolIE-Container")));
  (* RANAP-PDU-Contents.asn:1154 *)
  ("RAB-DataVolumeReportRequestItem",
    (ASeq true [("rAB-ID", (false, (ARef "RAB-ID")));
      ("iE-Extensions", (true, (ARef "ProtocolExtensionContainer")))] []));
  (* RANAP-PDU-Contents.asn:1174 *)
  ("DataVolumeReport",
    (ASeq true [("protocolIEs", (false, (ARef "ProtocolIE-Container")));
      ("protocolExtensions", (true, (ARef "ProtocolExtensionContainer")))] []));
  (* RANAP-PDU-Contents.asn:1191 *)
  ("RABs-failed-to-reportList",
    (ASeqOf (Some (Rng (Num (1)) (Cst "maxNrOfRABs") false)) (ARef "ProtocolIE-Container")));
  (* RANAP-PDU-Contents.asn:1198 *)
  ("RABs-failed-to-reportItem",
    (ASeq true [("rAB-ID", (false, (ARef "RAB-ID")));
      ("cause", (false, (ARef "Cause")));
      ("iE-Extensions", (true, (ARef "ProtocolExtensionContainer")))] []));
  (* RANAP-PDU-Contents.asn:1223 *)
  ("Reset",
    (ASeq true [("protocolIEs", (false, (ARef "ProtocolIE-Container")));
      ("protocolExtensions", (true, (ARef "ProtocolExtensionContainer")))] []));
  (* RANAP-PDU-Contents.asn:1250 *)
  ("ResetAcknowledge",
    (ASeq true [("protocolIEs", (false, (ARef "ProtocolIE-Container")));
      ("protocolExtensions", (true, (ARef "ProtocolExtensionContainer")))] []));
  (* RANAP-PDU-Contents.asn:1283 *)
  ("ResetResource",
    (ASeq true [("protocolIEs", (false, (ARef "ProtocolIE-Container")));
      ("protocolExtensions", (true, (ARef "ProtocolExtensionContainer")))] []));
  (* RANAP-PDU-Contents.asn:1297 *)
  ("ResetResourceList",
    (ASeqOf (Some (Rng (Num (1)) (Cst "maxNrOfIuSigConIds") false)) (ARef "ProtocolIE-Container")));
  (* RANAP-PDU-Contents.asn:1304 *)
  ("ResetResourceItem",
    (ASeq true [("iuSigConId", (false, (ARef "IuSignallingConnectionIdentifier")));
      ("iE-Extensions", (true, (ARef "ProtocolExtensionContainer")))] []));
  (* RANAP-PDU-Contents.asn:1328 *)
  ("ResetResourceAcknowledge",
    (ASeq true [("protocolIEs", (false, (ARef "ProtocolIE-Container")));
      ("protocolExtensions", (true, (ARef "ProtocolExtensionContainer")))] []));
  (* RANAP-PDU-Contents.asn:1341 *)
  ("ResetResourceAckList",
    (ASeqOf (Some (Rng (Num (1)) (Cst "maxNrOfIuSigConIds") false)) (ARef "ProtocolIE-Container")));
  (* RANAP-PDU-Contents.asn:1348 *)
  ("ResetResourceAckItem",
    (ASeq true [("iuSigConId", (false, (ARef "IuSignallingConnectionIdentifier")));
      ("iE-Extensions", (true, (ARef "ProtocolExtensionContainer")))] []));
  (* RANAP-PDU-Contents.asn:1378 *)
  ("RAB-ReleaseRequest",
    (ASeq true [("protocolIEs", (false, (ARef "ProtocolIE-Container")));
      ("protocolExtensions", (true, (ARef "ProtocolExtensionContainer")))] []));
  (* RANAP-PDU-Contents.asn:1389 *)
  ("RAB-ReleaseList",
    (ASeqOf (Some (Rng (Num (1)) (Cst "maxNrOfRABs") false)) (ARef "ProtocolIE-Container")));
  (* RANAP-PDU-Contents.asn:1396 *)
  ("RAB-ReleaseItem",
    (ASeq true [("rAB-ID", (false, (ARef "RAB-ID")));
      ("cause", (false, (ARef "Cause")));
      ("iE-Extensions", (true, (ARef "ProtocolExtensionContainer")))] []));
  (* RANAP-PDU-Contents.asn:1423 *)
  ("Iu-ReleaseRequest",
    (ASeq true [("protocolIEs", (false, (ARef "ProtocolIE-Container")));
      ("protocolExtensions", (true, (ARef "ProtocolExtensionContainer")))] []));
  (* RANAP-PDU-Contents.asn:1450 *)
  ("RelocationDetect",
    (ASeq true [("protocolIEs", (false, (ARef "ProtocolIE-Container")));
      ("protocolExtensions", (true, (ARef "ProtocolExtensionContainer")))] []));
  (* RANAP-PDU-Contents.asn:1476 *)
  ("RelocationComplete",
    (ASeq true [("protocolIEs", (false, (ARef "ProtocolIE-Container")));
      ("protocolExtensions", (true, (ARef "ProtocolExtensionContainer")))] []));
  (* RANAP-PDU-Contents.asn:1508 *)
  ("EnhancedRelocationCompleteRequest",
    (ASeq true [("protocolIEs", (false, (ARef "ProtocolIE-Container")));
      ("protocolExtensions", (true, (ARef "ProtocolExtensionContainer")))] []));
  (* RANAP-PDU-Contents.asn:1525 *)
  ("RAB-SetupList-EnhancedRelocCompleteReq",
    (ASeqOf (Some (Rng (Num (1)) (Cst "maxNrOfRABs") false)) (ARef "ProtocolIE-Container")));
  (* RANAP-PDU-Contents.asn:1532 *)
  ("RAB-SetupItem-EnhancedRelocCompleteReq",
    (ASeq true [("rAB-ID", (false, (ARef "RAB-ID")));
      ("transportLayerAddressReq1", (true, (ARef "TransportLayerAddress")));
      ("iuTransportAssociationReq1", (true, (ARef "IuTransportAssociation")));
      ("ass-RAB-Parameters", (true, (ARef "Ass-RAB-Parameters")));
      ("iE-Extensions", (true, (ARef "ProtocolExtensionContainer")))] []));
  (* RANAP-PDU-Contents.asn:1566 *)
  ("EnhancedRelocationCompleteResponse",
    (ASeq true [("protocolIEs", (false, (ARef "ProtocolIE-Container")));
      ("protocolExtensions", (true, (ARef "ProtocolExtensionContainer")))] []));
  (* RANAP-PDU-Contents.asn:1579 *)
  ("RAB-SetupList-EnhancedRelocCompleteRes",
    (ASeqOf (Some (Rng (Num (1)) (Cst "maxNrOfRABs") false)) (ARef "ProtocolIE-Container")));
  (* RANAP-PDU-Contents.asn:1586 *)
  ("RAB-SetupItem-EnhancedRelocCompleteRes",
    (ASeq true [("rAB-ID", (false, (ARef "RAB-ID")));
      ("rAB-Parameters", (true, (ARef "RAB-Parameters")));
      ("userPlaneInformation", (false, (ARef "UserPlaneInformation")));
      ("transportLayerAddressRes1", (true, (ARef "TransportLayerAddress")));
      ("iuTransportAssociationRes1", (true, (ARef "IuTransportAssociation")));
      ("rab2beReleasedList", (true, (ARef "RAB-ToBeReleasedList-EnhancedRelocCompleteRes")));
      ("iE-Extensions", (true, (ARef "ProtocolExtensionContainer")))] []));
  (* RANAP-PDU-Contents.asn:1603 *)
  ("RAB-ToBeReleasedList-EnhancedRelocCompleteRes",
    (ASeqOf (Some (Rng (Num (1)) (Cst "maxNrOfRABs") false)) (ARef "ProtocolIE-Container")));
  (* RANAP-PDU-Contents.asn:1610 *)
  ("RAB-ToBeReleasedItem-EnhancedRelocCompleteRes",
    (ASeq true [("rAB-ID", (false, (ARef "RAB-ID")));
      ("cause", (false, (ARef "Cause")));
      ("iE-Extensions", (true, (ARef "ProtocolExtensionContainer")))] []));
  (* RANAP-PDU-Contents.asn:1636 *)
  ("EnhancedRelocationCompleteFailure",
    (ASeq true [("protocolIEs", (false, (ARef "ProtocolIE-Container")));
      ("protocolExtensions", (true, (ARef "ProtocolExtensionContainer")))] []));
  (* RANAP-PDU-Contents.asn:1658 *)
  ("EnhancedRelocationCompleteConfirm",
    (ASeq true [("protocolIEs", (false, (ARef "ProtocolIE-Container")));
      ("protocolExtensions", (true, (ARef "ProtocolExtensionContainer")))] []));
  (* RANAP-PDU-Contents.asn:1686 *)
  ("Paging",
    (ASeq true [("protocolIEs", (false, (ARef "ProtocolIE-Container")));
      ("protocolExtensions", (true, (ARef "ProtocolExtensionContainer")))] []));
  (* RANAP-PDU-Contents.asn:1723 *)
  ("CommonID",
    (ASeq true [("protocolIEs", (false, (ARef "ProtocolIE-Container")));
      ("protocolExtensions", (true, (ARef "ProtocolExtensionContainer")))] []));
  (* RANAP-PDU-Contents.asn:1770 *)
  ("CN-InvokeTrace",
    (ASeq true [("protocolIEs", (false, (ARef "ProtocolIE-Container")));
      ("protocolExtensions", (true, (ARef "ProtocolExtensionContainer")))] []));
  (* RANAP-PDU-Contents.asn:1811 *)
  ("CN-DeactivateTrace",
    (ASeq true [("protocolIEs", (false, (ARef "ProtocolIE-Container")));
      ("protocolExtensions", (true, (ARef "ProtocolExtensionContainer")))] []));
  (* RANAP-PDU-Contents.asn:1840 *)
  ("LocationReportingControl",
    (ASeq true [("protocolIEs", (false, (ARef "ProtocolIE-Container")));
      ("protocolExtensions", (true, (ARef "ProtocolExtensionContainer")))] []));
  (* RANAP-PDU-Contents.asn:1879 *)
  ("LocationReport",
    (ASeq true [("protocolIEs", (false, (ARef "ProtocolIE-Container")));
      ("protocolExtensions", (true, (ARef "ProtocolExtensionContainer")))] []));
  (* RANAP-PDU-Contents.asn:1919 *)
  ("InitialUE-Message",
    (ASeq true [("protocolIEs", (false, (ARef "ProtocolIE-Container")));
      ("protocolExtensions", (true, (ARef "ProtocolExtensionContainer")))] []));
  (* RANAP-PDU-Contents.asn:1979 *)
  ("DirectTransfer",
    (ASeq true [("protocolIEs", (false, (ARef "ProtocolIE-Container")));
      ("protocolExtensions", (true, (ARef "ProtocolExtensionContainer")))] []));
  (* RANAP-PDU-Contents.asn:2010 *)
  ("RedirectionIndication",
    (ARef "ProtocolIE-Container"));
  (* RANAP-PDU-Contents.asn:2032 *)
  ("Overload",
    (ASeq true [("protocolIEs", (false, (ARef "ProtocolIE-Container")));
      ("protocolExtensions", (true, (ARef "ProtocolExtensionContainer")))] []));
  (* RANAP-PDU-Contents.asn:2068 *)
  ("ErrorIndication",
    (ASeq true [("protocolIEs", (false, (ARef "ProtocolIE-Container")));
      ("protocolExtensions", (true, (ARef "ProtocolExtensionContainer")))] []));
  (* RANAP-PDU-Contents.asn:2102 *)
  ("SRNS-DataForwardCommand",
    (ASeq true [("protocolIEs", (false, (ARef "ProtocolIE-Container")));
      ("protocolExtensions", (true, (ARef "ProtocolExtensionContainer")))] []));
  (* RANAP-PDU-Contents.asn:2129 *)
  ("ForwardSRNS-Context",
    (ASeq true [("protocolIEs", (false, (ARef "ProtocolIE-Container")));
      ("protocolExtensions", (true, (ARef "ProtocolExtensionContainer")))] []));
  (* RANAP-PDU-Contents.asn:2158 *)
  ("RAB-AssignmentRequest",
    (ASeq true [("protocolIEs", (false, (ARef "ProtocolIE-Container")));
      ("protocolExtensions", (true, (ARef "ProtocolExtensionContainer")))] []));
  (* RANAP-PDU-Contents.asn:2170 *)
  ("RAB-SetupOrModifyList",
    (ASeqOf (Some (Rng (Num (1)) (Cst "maxNrOfRABs") false)) (ARef "ProtocolIE-ContainerPair")));
  (* RANAP-PDU-Contents.asn:2179 *)
  ("RAB-SetupOrModifyItemFirst",
    (ASeq true [("rAB-ID", (false, (ARef "RAB-ID")));
      ("nAS-SynchronisationIndicator", (true, (ARef "NAS-SynchronisationIndicator")));
      ("rAB-Parameters", (true, (ARef "RAB-Parameters")));
      ("userPlaneInformation", (true, (ARef "UserPlaneInformation")));
      ("transportLayerInformation", (true, (ARef "TransportLayerInformation")));
      ("service-Handover", (true, (ARef "Service-Handover")));
      ("iE-Extensions", (true, (ARef "ProtocolExtensionContainer")))] []));
  (* RANAP-PDU-Contents.asn:2190 *)
  ("TransportLayerInformation",
    (ASeq true [("transportLayerAddress", (false, (ARef "TransportLayerAddress")));
      ("iuTransportAssociation", (false, (ARef "IuTransportAssociation")));
      ("iE-Extensions", (true, (ARef "ProtocolExtensionContainer")))] []));
  (* RANAP-PDU-Contents.asn:2211 *)
  ("RAB-SetupOrModifyItemSecond",
    (ASeq true [("pDP-TypeInformation", (true, (ARef "PDP-TypeInformation")));
      ("dataVolumeReportingIndication", (true, (ARef "DataVolumeReportingIndication")));
      ("dl-GTP-PDU-SequenceNumber", (true, (ARef "DL-GTP-PDU-SequenceNumber")));
      ("ul-GTP-PDU-SequenceNumber", (true, (ARef "UL-GTP-PDU-SequenceNumber")));
      ("dl-N-PDU-SequenceNumber", (true, (ARef "DL-N-PDU-SequenceNumber")));
      ("ul-N-PDU-SequenceNumber", (true, (ARef "UL-N-PDU-SequenceNumber")));
      ("iE-Extensions", (true, (ARef "ProtocolExtensionContainer")))] []));
  (* RANAP-PDU-Contents.asn:2247 *)
  ("RAB-AssignmentResponse",
    (ASeq true [("protocolIEs", (false, (ARef "ProtocolIE-Container")));
      ("protocolExtensions", (true, (ARef "ProtocolExtensionContainer")))] []));
  (* RANAP-PDU-Contents.asn:2263 *)
  ("RAB-SetupOrModifiedList",
    (ASeqOf (Some (Rng (Num (1)) (Cst "maxNrOfRABs") false)) (ARef "ProtocolIE-Container")));
  (* RANAP-PDU-Contents.asn:2270 *)
  ("RAB-SetupOrModifiedItem",
    (ASeq true [("rAB-ID", (false, (ARef "RAB-ID")));
      ("transportLayerAddress", (true, (ARef "TransportLayerAddress")));
      ("iuTransportAssociation", (true, (ARef "IuTransportAssociation")));
      ("dl-dataVolumes", (true, (ARef "DataVolumeList")));
      ("iE-Extensions", (true, (ARef "ProtocolExtensionContainer")))] []));
  (* RANAP-PDU-Contents.asn:2285 *)
  ("RAB-ReleasedList",
    (ASeqOf (Some (Rng (Num (1)) (Cst "maxNrOfRABs") false)) (ARef "ProtocolIE-Container")));
  (* RANAP-PDU-Contents.asn:2292 *)
  ("RAB-ReleasedItem",
    (ASeq true [("rAB-ID", (false, (ARef "RAB-ID")));
      ("dl-dataVolumes", (true, (ARef "DataVolumeList")));
      ("dL-GTP-PDU-SequenceNumber", (true, (ARef "DL-GTP-PDU-SequenceNumber")));
      ("uL-GTP-PDU-SequenceNumber", (true, (ARef "UL-GTP-PDU-SequenceNumber")));
      ("iE-Extensions", (true, (ARef "ProtocolExtensionContainer")))] []));
  (* RANAP-PDU-Contents.asn:2305 *)
  ("DataVolumeList",
    (ASeqOf (Some (Rng (Num (1)) (Cst "maxNrOfVol") false)) (ARef "DataVolumeList-Value")));
  (* RANAP-PDU-Contents.asn:2306 *)
  ("DataVolumeList-Value",
    (ASeq true [("dl-UnsuccessfullyTransmittedDataVolume", (false, (ARef "UnsuccessfullyTransmittedDataVolume")));
      ("dataVolumeReference", (true, (ARef "DataVolumeReference")));
      ("iE-Extensions", (true, (ARef "ProtocolExtensionContainer")))] []));
  (* RANAP-PDU-Contents.asn:2318 *)
  ("RAB-QueuedList",
    (ASeqOf (Some (Rng (Num (1)) (Cst "maxNrOfRABs") false)) (ARef "ProtocolIE-Container")));
  (* RANAP-PDU-Contents.asn:2325 *)
  ("RAB-QueuedItem",
    (ASeq true [("rAB-ID", (false, (ARef "RAB-ID")));
      ("iE-Extensions", (true, (ARef "ProtocolExtensionContainer")))] []));
  (* RANAP-PDU-Contents.asn:2335 *)
  ("RAB-ReleaseFailedList",
    (ARef "RAB-FailedList"));
  (* RANAP-PDU-Contents.asn:2343 *)
  ("GERAN-Iumode-RAB-FailedList-RABAssgntResponse",
    (ASeqOf (Some (Rng (Num (1)) (Cst "maxNrOfRABs") false)) (ARef "ProtocolIE-Container")));
  (* RANAP-PDU-Contents.asn:2350 *)
  ("GERAN-Iumode-RAB-Failed-RABAssgntResponse-Item",
    (ASeq true [("rAB-ID", (false, (ARef "RAB-ID")));
      ("cause", (false, (ARef "Cause")));
      ("gERAN-Classmark", (true, (ARef "GERAN-Classmark")));
      ("iE-Extensions", (true, (ARef "ProtocolExtensionContainer")))] []));
  (* RANAP-PDU-Contents.asn:2368 *)
  ("PrivateMessage",
    (ASeq true [("privateIEs", (false, (ARef "PrivateIE-Container")))] []));
  (* RANAP-PDU-Contents.asn:2383 *)
  ("RANAP-RelocationInformation",
    (ASeq true [("protocolIEs", (false, (ARef "ProtocolIE-Container")));
      ("protocolExtensions", (true, (ARef "ProtocolExtensionContainer")))] []));
  (* RANAP-PDU-Contents.asn:2397 *)
  ("DirectTransferInformationList-RANAP-RelocInf",
    (ASeqOf (Some (Rng (Num (1)) (Cst "maxNrOfDTs") false)) (ARef "ProtocolIE-Container")));
  (* RANAP-PDU-Contents.asn:2406 *)
  ("DirectTransferInformationItem-RANAP-RelocInf",
    (ASeq true [("nAS-PDU", (false, (ARef "NAS-PDU")));
      ("sAPI", (false, (ARef "SAPI")));
      ("cN-DomainIndicator", (false, (ARef "CN-DomainIndicator")));
      ("iE-Extensions", (true, (ARef "ProtocolExtensionContainer")))] []));
  (* RANAP-PDU-Contents.asn:2418 *)
  ("RAB-ContextList-RANAP-RelocInf",
    (ASeqOf (Some (Rng (Num (1)) (Cst "maxNrOfRABs") false)) (ARef "ProtocolIE-Container")));
  (* RANAP-PDU-Contents.asn:2425 *)
  ("RAB-ContextItem-RANAP-RelocInf",
    (ASeq true [("rAB-ID", (false, (ARef "RAB-ID")));
      ("dl-GTP-PDU-SequenceNumber", (true, (ARef "DL-GTP-PDU-SequenceNumber")));
      ("ul-GTP-PDU-SequenceNumber", (true, (ARef "UL-GTP-PDU-SequenceNumber")));
      ("dl-N-PDU-SequenceNumber", (true, (ARef "DL-N-PDU-SequenceNumber")));
      ("ul-N-PDU-SequenceNumber", (true, (ARef "UL-N-PDU-SequenceNumber")));
      ("iE-Extensions", (true, (ARef "ProtocolExtensionContainer")))] []));
  (* RANAP-PDU-Contents.asn:2459 *)
  ("RANAP-EnhancedRelocationInformationRequest",
    (ASeq true [("protocolIEs", (false, (ARef "ProtocolIE-Container")));
      ("protocolExtensions", (true, (ARef "ProtocolExtensionContainer")))] []));
  (* RANAP-PDU-Contents.asn:2479 *)
  ("RAB-SetupList-EnhRelocInfoReq",
    (ASeqOf (Some (Rng (Num (1)) (Cst "maxNrOfRABs") false)) (ARef "ProtocolIE-Container")));
  (* RANAP-PDU-Contents.asn:2486 *)
  ("RAB-SetupItem-EnhRelocInfoReq",
    (ASeq true [("rAB-ID", (false, (ARef "RAB-ID")));
      ("cN-DomainIndicator", (false, (ARef "CN-DomainIndicator")));
      ("rAB-Parameters", (false, (ARef "RAB-Parameters")));
      ("dataVolumeReportingIndication", (true, (ARef "DataVolumeReportingIndication")));
      ("pDP-TypeInformation", (true, (ARef "PDP-TypeInformation")));
      ("userPlaneInformation", (false, (ARef "UserPlaneInformation")));
      ("dataForwardingInformation", (true, (ARef "TNLInformationEnhRelInfoReq")));
      ("sourceSideIuULTNLInfo", (true, (ARef "TNLInformationEnhRelInfoReq")));
      ("service-Handover", (true, (ARef "Service-Handover")));
      ("alt-RAB-Parameters", (true, (ARef "Alt-RAB-Parameters")));
      ("iE-Extensions", (true, (ARef "ProtocolExtensionContainer")))] []));
  (* RANAP-PDU-Contents.asn:2512 *)
  ("TNLInformationEnhRelInfoReq",
    (ASeq true [("transportLayerAddress", (false, (ARef "TransportLayerAddress")));
      ("iuTransportAssociation", (false, (ARef "IuTransportAssociation")));
      ("iE-Extensions", (true, (ARef "ProtocolExtensionContainer")))] []));
  (* RANAP-PDU-Contents.asn:2543 *)
  ("RANAP-EnhancedRelocationInformationResponse",
    (ASeq true [("protocolIEs", (false, (ARef "ProtocolIE-Container")));
      ("protocolExtensions", (true, (ARef "ProtocolExtensionContainer")))] []));
  (* RANAP-PDU-Contents.asn:2557 *)
  ("RAB-SetupList-EnhRelocInfoRes",
    (ASeqOf (Some (Rng (Num (1)) (Cst "maxNrOfRABs") false)) (ARef "ProtocolIE-Container")));
  (* RANAP-PDU-Contents.asn:2564 *)
  ("RAB-SetupItem-EnhRelocInfoRes",
    (ASeq true [("cN-DomainIndicator", (false, (ARef "CN-DomainIndicator")));
      ("rAB-ID", (false, (ARef "RAB-ID")));
      ("dataForwardingInformation", (true, (ARef "TNLInformationEnhRelInfoRes")));
      ("ass-RAB-Parameters", (true, (ARef "Ass-RAB-Parameters")));
      ("iE-Extensions", (true, (ARef "ProtocolExtensionContainer")))] []));
  (* RANAP-PDU-Contents.asn:2577 *)
  ("RAB-FailedList-EnhRelocInfoRes",
    (ASeqOf (Some (Rng (Num (1)) (Cst "maxNrOfRABs") false)) (ARef "ProtocolIE-Container")));
  (* RANAP-PDU-Contents.asn:2584 *)
  ("RAB-FailedItem-EnhRelocInfoRes",
    (ASeq true [("cN-DomainIndicator", (false, (ARef "CN-DomainIndicator")));
      ("rAB-ID", (false, (ARef "RAB-ID")));
      ("cause", (false, (ARef "Cause")));
      ("iE-Extensions", (true, (ARef "ProtocolExtensionContainer")))] []));
  (* RANAP-PDU-Contents.asn:2595 *)
  ("TNLInformationEnhRelInfoRes",
    (ASeq true [("dl-forwardingTransportLayerAddress", (false, (ARef "TransportLayerAddress")));
      ("dl-forwardingTransportAssociation", (false, (ARef "IuTransportAssociation")));
      ("iE-Extensions", (true, (ARef "ProtocolExtensionContainer")))] []));
  (* RANAP-PDU-Contents.asn:2621 *)
  ("RAB-ModifyRequest",
    (ASeq true [("protocolIEs", (false, (ARef "ProtocolIE-Container")));
      ("protocolExtensions", (true, (ARef "ProtocolExtensionContainer")))] []));
  (* RANAP-PDU-Contents.asn:2632 *)
  ("RAB-ModifyList",
    (ASeqOf (Some (Rng (Num (1)) (Cst "maxNrOfRABs") false)) (ARef "ProtocolIE-Container")));
  (* RANAP-PDU-Contents.asn:2639 *)
  ("RAB-ModifyItem",
    (ASeq true [("rAB-ID", (false, (ARef "RAB-ID")));
      ("requested-RAB-Parameter-Values", (false, (ARef "Requested-RAB-Parameter-Values")));
      ("iE-Extensions", (true, (ARef "ProtocolExtensionContainer")))] []));
  (* RANAP-PDU-Contents.asn:2666 *)
  ("LocationRelatedDataRequest",
    (ASeq true [("protocolIEs", (false, (ARef "ProtocolIE-Container")));
      ("protocolExtensions", (true, (ARef "ProtocolExtensionContainer")))] []));
  (* RANAP-PDU-Contents.asn:2694 *)
  ("LocationRelatedDataResponse",
    (ASeq true [("protocolIEs", (false, (ARef "ProtocolIE-Container")));
      ("protocolExtensions", (true, (ARef "ProtocolExtensionContainer")))] []));
  (* RANAP-PDU-Contents.asn:2718 *)
  ("LocationRelatedDataFailure",
    (ASeq true [("protocolIEs", (false, (ARef "ProtocolIE-Container")));
      ("protocolExtensions", (true, (ARef "ProtocolExtensionContainer")))] []));
  (* RANAP-PDU-Contents.asn:2747 *)
  ("InformationTransferIndication",
    (ASeq true [("protocolIEs", (false, (ARef "ProtocolIE-Container")));
      ("protocolExtensions", (true, (ARef "ProtocolExtensionContainer")))] []));
  (* RANAP-PDU-Contents.asn:2771 *)
  ("InformationTransferConfirmation",
    (ASeq true [("protocolIEs", (false, (ARef "ProtocolIE-Container")));
      ("protocolExtensions", (true, (ARef "ProtocolExtensionContainer")))] []));
  (* RANAP-PDU-Contents.asn:2797 *)
  ("InformationTransferFailure",
    (ASeq true [("protocolIEs", (false, (ARef "ProtocolIE-Container")));
      ("protocolExtensions", (true, (ARef "ProtocolExtensionContainer")))] []));
  (* RANAP-PDU-Contents.asn:2830 *)
  ("UESpecificInformationIndication",
    (ASeq true [("protocolIEs", (false, (ARef "ProtocolIE-Container")));
      ("protocolExtensions", (true, (ARef "ProtocolExtensionContainer")))] []));
  (* RANAP-PDU-Contents.asn:2857 *)
  ("DirectInformationTransfer",
    (ASeq true [("protocolIEs", (false, (ARef "ProtocolIE-Container")));
      ("protocolExtensions", (true, (ARef "ProtocolExtensionContainer")))] []));
  (* RANAP-PDU-Contents.asn:2889 *)
  ("UplinkInformationExchangeRequest",
    (ASeq true [("protocolIEs", (false, (ARef "ProtocolIE-Container")));
      ("protocolExtensions", (true, (ARef "ProtocolExtensionContainer")))] []));
  (* RANAP-PDU-Contents.asn:2919 *)
  ("UplinkInformationExchangeResponse",
    (ASeq true [("protocolIEs", (false, (ARef "ProtocolIE-Container")));
      ("protocolExtensions", (true, (ARef "ProtocolExtensionContainer")))] []));
  (* RANAP-PDU-Contents.asn:2944 *)
  ("UplinkInformationExchangeFailure",
    (ASeq true [("protocolIEs", (false, (ARef "ProtocolIE-Container")));
      ("protocolExtensions", (true, (ARef "ProtocolExtensionContainer")))] []));
  (* RANAP-PDU-Contents.asn:2975 *)
  ("MBMSSessionStart",
    (ASeq true [("protocolIEs", (false, (ARef "ProtocolIE-Container")));
      ("protocolExtensions", (true, (ARef "ProtocolExtensionContainer")))] []));
  (* RANAP-PDU-Contents.asn:3009 *)
  ("MBMSSynchronisationInformation",
    (ASeq true [("mBMSHCIndicator", (false, (ARef "MBMSHCIndicator")));
      ("iPMulticastAddress", (false, (ARef "IPMulticastAddress")));
      ("gTPDLTEID", (false, (ARef "GTP-TEI")));
      ("iE-Extensions", (true, (ARef "ProtocolExtensionContainer")))] []));
  (* RANAP-PDU-Contents.asn:3028 *)
  ("MBMSSessionStartResponse",
    (ASeq true [("protocolIEs", (false, (ARef "ProtocolIE-Container")));
      ("protocolExtensions", (true, (ARef "ProtocolExtensionContainer")))] []));
  (* RANAP-PDU-Contents.asn:3051 *)
  ("MBMSSessionStartFailure",
    (ASeq true [("protocolIEs", (false, (ARef "ProtocolIE-Container")));
      ("protocolExtensions", (true, (ARef "ProtocolExtensionContainer")))] []));
  (* RANAP-PDU-Contents.asn:3079 *)
  ("MBMSSessionUpdate",
    (ASeq true [("protocolIEs", (false, (ARef "ProtocolIE-Container")));
      ("protocolExtensions", (true, (ARef "ProtocolExtensionContainer")))] []));
  (* RANAP-PDU-Contents.asn:3101 *)
  ("MBMSSessionUpdateResponse",
    (ASeq true [("protocolIEs", (false, (ARef "ProtocolIE-Container")));
      ("protocolExtensions", (true, (ARef "ProtocolExtensionContainer")))] []));
  (* RANAP-PDU-Contents.asn:3125 *)
  ("MBMSSessionUpdateFailure",
    (ASeq true [("protocolIEs", (false, (ARef "ProtocolIE-Container")));
      ("protocolExtensions", (true, (ARef "ProtocolExtensionContainer")))] []));
  (* RANAP-PDU-Contents.asn:3154 *)
  ("MBMSSessionStop",
    (ASeq true [("protocolIEs", (false, (ARef "ProtocolIE-Container")));
      ("protocolExtensions", (true, (ARef "ProtocolExtensionContainer")))] []));
  (* RANAP-PDU-Contents.asn:3175 *)
  ("MBMSSessionStopResponse",
    (ASeq true [("protocolIEs", (false, (ARef "ProtocolIE-Container")));
      ("protocolExtensions", (true, (ARef "ProtocolExtensionContainer")))] []));
  (* RANAP-PDU-Contents.asn:3203 *)
  ("MBMSUELinkingRequest",
    (ASeq true [("protocolIEs", (false, (ARef "ProtocolIE-Container")));
      ("protocolExtensions", (true, (ARef "ProtocolExtensionContainer")))] []));
  (* RANAP-PDU-Contents.asn:3215 *)
  ("LeftMBMSBearerService-IEs",
    (ASeqOf (Some (Rng (Num (1)) (Cst "maxnoofMulticastServicesPerUE") false)) (ARef "LeftMBMSBearerService-IEs-Value")));
  (* RANAP-PDU-Contents.asn:3216 *)
  ("LeftMBMSBearerService-IEs-Value",
    (ASeq true [("tMGI", (false, (ARef "TMGI")));
      ("iE-Extensions", (true, (ARef "ProtocolExtensionContainer")))] []));
  (* RANAP-PDU-Contents.asn:3237 *)
  ("MBMSUELinkingResponse",
    (ASeq true [("protocolIEs", (false, (ARef "ProtocolIE-Container")));
      ("protocolExtensions", (true, (ARef "ProtocolExtensionContainer")))] []));
  (* RANAP-PDU-Contents.asn:3249 *)
  ("UnsuccessfulLinking-IEs",
    (ASeqOf (Some (Rng (Num (1)) (Cst "maxnoofMulticastServicesPerUE") false)) (ARef "UnsuccessfulLinking-IEs-Value")));
  (* RANAP-PDU-Contents.asn:3250 *)
  ("UnsuccessfulLinking-IEs-Value",
    (ASeq true [("tMGI", (false, (ARef "TMGI")));
      ("cause", (false, (ARef "Cause")));
      ("iE-Extensions", (true, (ARef "ProtocolExtensionContainer")))] []));
  (* RANAP-PDU-Contents.asn:3278 *)
  ("MBMSRegistrationRequest",
    (ASeq true [("protocolIEs", (false, (ARef "ProtocolIE-Container")));
      ("protocolExtensions", (true, (ARef "ProtocolExtensionContainer")))] []));
  (* RANAP-PDU-Contents.asn:3307 *)
  ("MBMSRegistrationResponse",
    (ASeq true [("protocolIEs", (false, (ARef "ProtocolIE-Container")));
      ("protocolExtensions", (true, (ARef "ProtocolExtensionContainer")))] []));
  (* RANAP-PDU-Contents.asn:3330 *)
  ("MBMSRegistrationFailure",
    (ASeq true [("protocolIEs", (false, (ARef "ProtocolIE-Container")));
      ("protocolExtensions", (true, (ARef "ProtocolExtensionContainer")))] []));
  (* RANAP-PDU-Contents.asn:3360 *)
  ("MBMSCNDe-RegistrationRequest",
    (ASeq true [("protocolIEs", (false, (ARef "ProtocolIE-Container")));
      ("protocolExtensions", (true, (ARef "ProtocolExtensionContainer")))] []));
  (* RANAP-PDU-Contents.asn:3382 *)
  ("MBMSCNDe-RegistrationResponse",
    (ASeq true [("protocolIEs", (false, (ARef "ProtocolIE-Container")));
      ("protocolExtensions", (true, (ARef "ProtocolExtensionContainer")))] []));
  (* RANAP-PDU-Contents.asn:3414 *)
  ("MBMSRABEstablishmentIndication",
    (ASeq true [("protocolIEs", (false, (ARef "ProtocolIE-Container")));
      ("protocolExtensions", (true, (ARef "ProtocolExtensionContainer")))] []));
  (* RANAP-PDU-Contents.asn:3441 *)
  ("MBMSRABReleaseRequest",
    (ASeq true [("protocolIEs", (false, (ARef "ProtocolIE-Container")));
      ("protocolExtensions", (true, (ARef "ProtocolExtensionContainer")))] []));
  (* RANAP-PDU-Contents.asn:3463 *)
  ("MBMSRABRelease",
    (ASeq true [("protocolIEs", (false, (ARef "ProtocolIE-Container")));
      ("protocolExtensions", (true, (ARef "ProtocolExtensionContainer")))] []));
  (* RANAP-PDU-Contents.asn:3485 *)
  ("MBMSRABReleaseFailure",
    (ASeq true [("protocolIEs", (false, (ARef "ProtocolIE-Container")));
      ("protocolExtensions", (true, (ARef "ProtocolExtensionContainer")))] []));
  (* RANAP-PDU-Contents.asn:3513 *)
  ("SRVCC-CSKeysRequest",
    (ASeq true [("protocolIEs", (false, (ARef "ProtocolIE-Container")));
      ("protocolExtensions", (true, (ARef "ProtocolExtensionContainer")))] []));
  (* RANAP-PDU-Contents.asn:3533 *)
  ("SRVCC-CSKeysResponse",
    (ASeq true [("protocolIEs", (false, (ARef "ProtocolIE-Container")));
      ("protocolExtensions", (true, (ARef "ProtocolExtensionContainer")))] []));
  (* RANAP-PDU-Contents.asn:3564 *)
  ("UeRadioCapabilityMatchRequest",
    (ASeq true [("protocolIEs", (false, (ARef "ProtocolIE-Container")));
      ("protocolExtensions", (true, (ARef "ProtocolExtensionContainer")))] []));
  (* RANAP-PDU-Contents.asn:3584 *)
  ("UeRadioCapabilityMatchResponse",
    (ASeq true [("protocolIEs", (false, (ARef "ProtocolIE-Container")));
      ("protocolExtensions", (true, (ARef "ProtocolExtensionContainer")))] []));
  (* RANAP-PDU-Descriptions.asn:189 *)
  ("RANAP-PDU",
    (AChoice true [("initiatingMessage", (ARef "InitiatingMessage"));
      ("successfulOutcome", (ARef "SuccessfulOutcome"));
      ("unsuccessfulOutcome", (ARef "UnsuccessfulOutcome"));
      ("outcome", (ARef "Outcome"))] []));
  (* RANAP-PDU-Descriptions.asn:197 *)
  ("InitiatingMessage",
    (ASeq false [("procedureCode", (false, (ARef "ProcedureCode")));
      ("criticality", (false, (ARef "Criticality")));
      ("value", (false, AAny))] []));
  (* RANAP-PDU-Descriptions.asn:203 *)
  ("SuccessfulOutcome",
    (ASeq false [("procedureCode", (false, (ARef "ProcedureCode")));
      ("criticality", (false, (ARef "Criticality")));
      ("value", (false, AAny))] []));
  (* RANAP-PDU-Descriptions.asn:209 *)
  ("UnsuccessfulOutcome",
    (ASeq false [("procedureCode", (false, (ARef "ProcedureCode")));
      ("criticality", (false, (ARef "Criticality")));
      ("value", (false, AAny))] []));
  (* RANAP-PDU-Descriptions.asn:215 *)
  ("Outcome",
    (ASeq false [("procedureCode", (false, (ARef "ProcedureCode")));
      ("criticality", (false, (ARef "Criticality")));
      ("value", (false, AAny))] []));
  (* RANAP-PDU.asn:527; RANAP-IEs.asn uses it *)
  ("IE",
    (ASeq false [("id", (false, (ARef "ProtocolIE-ID")));
      ("criticality", (false, (ARef "Criticality")));
      ("value", (false, AAny))] [])) ].
(* asn1/ranap/RANAP-CommonDataTypes.asn, RANAP-Constants.asn, RANAP-IEs.asn, RANAP-Containers.asn,
   RANAP-PDU-Contents.asn, RANAP-PDU-Descriptions.asn *)
Definition ranap_full : grammar := Gram (ranap_common ++ ranap_contents) ranap_consts.

(* the messages of RANAP-PDU-Contents.asn: name of the type, object set of its IEs *)
Definition ranap_messages : list (string * string) := [
  ("Iu-ReleaseCommand", "Iu-ReleaseCommandIEs");  (* 446 *)
  ("Iu-ReleaseComplete", "Iu-ReleaseCompleteIEs");  (* 470 *)
  ("RelocationRequired", "RelocationRequiredIEs");  (* 538 *)
  ("RelocationCommand", "RelocationCommandIEs");  (* 581 *)
  ("RelocationPreparationFailure", "RelocationPreparationFailureIEs");  (* 654 *)
  ("RelocationRequest", "RelocationRequestIEs");  (* 684 *)
  ("RelocationRequestAcknowledge", "RelocationRequestAcknowledgeIEs");  (* 802 *)
  ("RelocationFailure", "RelocationFailureIEs");  (* 873 *)
  ("RelocationCancel", "RelocationCancelIEs");  (* 905 *)
  ("RelocationCancelAcknowledge", "RelocationCancelAcknowledgeIEs");  (* 926 *)
  ("SRNS-ContextRequest", "SRNS-ContextRequestIEs");  (* 953 *)
  ("SRNS-ContextResponse", "SRNS-ContextResponseIEs");  (* 993 *)
  ("SecurityModeCommand", "SecurityModeCommandIEs");  (* 1062 *)
  ("SecurityModeComplete", "SecurityModeCompleteIEs");  (* 1085 *)
  ("SecurityModeReject", "SecurityModeRejectIEs");  (* 1108 *)
  ("DataVolumeReportRequest", "DataVolumeReportRequestIEs");  (* 1136 *)
  ("DataVolumeReport", "DataVolumeReportIEs");  (* 1174 *)
  ("Reset", "ResetIEs");  (* 1223 *)
  ("ResetAcknowledge", "ResetAcknowledgeIEs");  (* 1250 *)
  ("ResetResource", "ResetResourceIEs");  (* 1283 *)
  ("ResetResourceAcknowledge", "ResetResourceAcknowledgeIEs");  (* 1328 *)
  ("RAB-ReleaseRequest", "RAB-ReleaseRequestIEs");  (* 1378 *)
  ("Iu-ReleaseRequest", "Iu-ReleaseRequestIEs");  (* 1423 *)
  ("RelocationDetect", "RelocationDetectIEs");  (* 1450 *)
  ("RelocationComplete", "RelocationCompleteIEs");  (* 1476 *)
  ("EnhancedRelocationCompleteRequest", "EnhancedRelocationCompleteRequestIEs");  (* 1508 *)
  ("EnhancedRelocationCompleteResponse", "EnhancedRelocationCompleteResponseIEs");  (* 1566 *)
  ("EnhancedRelocationCompleteFailure", "EnhancedRelocationCompleteFailureIEs");  (* 1636 *)
  ("EnhancedRelocationCompleteConfirm", "EnhancedRelocationCompleteConfirmIEs");  (* 1658 *)
  ("Paging", "PagingIEs");  (* 1686 *)
  ("CommonID", "CommonID-IEs");  (* 1723 *)
  ("CN-InvokeTrace", "CN-InvokeTraceIEs");  (* 1770 *)
  ("CN-DeactivateTrace", "CN-DeactivateTraceIEs");  (* 1811 *)
  ("LocationReportingControl", "LocationReportingControlIEs");  (* 1840 *)
  ("LocationReport", "LocationReportIEs");  (* 1879 *)
  ("InitialUE-Message", "InitialUE-MessageIEs");  (* 1919 *)
  ("DirectTransfer", "DirectTransferIEs");  (* 1979 *)
  ("Overload", "OverloadIEs");  (* 2032 *)
  ("ErrorIndication", "ErrorIndicationIEs");  (* 2068 *)
  ("SRNS-DataForwardCommand", "SRNS-DataForwardCommandIEs");  (* 2102 *)
  ("ForwardSRNS-Context", "ForwardSRNS-ContextIEs");  (* 2129 *)
  ("RAB-AssignmentRequest", "RAB-AssignmentRequestIEs");  (* 2158 *)
  ("RAB-AssignmentResponse", "RAB-AssignmentResponseIEs");  (* 2247 *)
  ("RANAP-RelocationInformation", "RANAP-RelocationInformationIEs");  (* 2383 *)
  ("RANAP-EnhancedRelocationInformationRequest", "RANAP-EnhancedRelocationInformationRequestIEs");  (* 2459 *)
  ("RANAP-EnhancedRelocationInformationResponse", "RANAP-EnhancedRelocationInformationResponseIEs");  (* 2543 *)
  ("RAB-ModifyRequest", "RAB-ModifyRequestIEs");  (* 2621 *)
  ("LocationRelatedDataRequest", "LocationRelatedDataRequestIEs");  (* 2666 *)
  ("LocationRelatedDataResponse", "LocationRelatedDataResponseIEs");  (* 2694 *)
  ("LocationRelatedDataFailure", "LocationRelatedDataFailureIEs");  (* 2718 *)
  ("InformationTransferIndication", "InformationTransferIndicationIEs");  (* 2747 *)
  ("InformationTransferConfirmation", "InformationTransferConfirmationIEs");  (* 2771 *)
  ("InformationTransferFailure", "InformationTransferFailureIEs");  (* 2797 *)
  ("UESpecificInformationIndication", "UESpecificInformationIndicationIEs");  (* 2830 *)
  ("DirectInformationTransfer", "DirectInformationTransferIEs");  (* 2857 *)
  ("UplinkInformationExchangeRequest", "UplinkInformationExchangeRequestIEs");  (* 2889 *)
  ("UplinkInformationExchangeResponse", "UplinkInformationExchangeResponseIEs");  (* 2919 *)
  ("UplinkInformationExchangeFailure", "UplinkInformationExchangeFailureIEs");  (* 2944 *)
  ("MBMSSessionStart", "MBMSSessionStartIEs");  (* 2975 *)
  ("MBMSSessionStartResponse", "MBMSSessionStartResponseIEs");  (* 3028 *)
  ("MBMSSessionStartFailure", "MBMSSessionStartFailureIEs");  (* 3051 *)
  ("MBMSSessionUpdate", "MBMSSessionUpdateIEs");  (* 3079 *)
  ("MBMSSessionUpdateResponse", "MBMSSessionUpdateResponseIEs");  (* 3101 *)
  ("MBMSSessionUpdateFailure", "MBMSSessionUpdateFailureIEs");  (* 3125 *)
  ("MBMSSessionStop", "MBMSSessionStopIEs");  (* 3154 *)
  ("MBMSSessionStopResponse", "MBMSSessionStopResponseIEs");  (* 3175 *)
  ("MBMSUELinkingRequest", "MBMSUELinkingRequestIEs");  (* 3203 *)
  ("MBMSUELinkingResponse", "MBMSUELinkingResponseIEs");  (* 3237 *)
  ("MBMSRegistrationRequest", "MBMSRegistrationRequestIEs");  (* 3278 *)
  ("MBMSRegistrationResponse", "MBMSRegistrationResponseIEs");  (* 3307 *)
  ("MBMSRegistrationFailure", "MBMSRegistrationFailureIEs");  (* 3330 *)
  ("MBMSCNDe-RegistrationRequest", "MBMSCNDe-RegistrationRequestIEs");  (* 3360 *)
  ("MBMSCNDe-RegistrationResponse", "MBMSCNDe-RegistrationResponseIEs");  (* 3382 *)
  ("MBMSRABEstablishmentIndication", "MBMSRABEstablishmentIndicationIEs");  (* 3414 *)
  ("MBMSRABReleaseRequest", "MBMSRABReleaseRequestIEs");  (* 3441 *)
  ("MBMSRABRelease", "MBMSRABReleaseIEs");  (* 3463 *)
  ("MBMSRABReleaseFailure", "MBMSRABReleaseFailureIEs");  (* 3485 *)
  ("SRVCC-CSKeysRequest", "SRVCC-CSKeysRequestIEs");  (* 3513 *)
  ("SRVCC-CSKeysResponse", "SRVCC-CSKeysResponseIEs");  (* 3533 *)
  ("UeRadioCapabilityMatchRequest", "UeRadioCapabilityMatchRequestIEs");  (* 3564 *)
  ("UeRadioCapabilityMatchResponse", "UeRadioCapabilityMatchResponseIEs") ].  (* 3584 *)

(* the lists of RANAP-PDU-Contents.asn: name of the type, greatest number of elements,
   object set of an element *)
Definition ranap_lists : list (string * (Z * string)) := [
  ("RAB-DataVolumeReportList", (256, "RAB-DataVolumeReportItemIEs"));  (* 483 *)
  ("RAB-ReleasedList-IuRelComp", (256, "RAB-ReleasedItem-IuRelComp-IEs"));  (* 502 *)
  ("RAB-RelocationReleaseList", (256, "RAB-RelocationReleaseItemIEs"));  (* 597 *)
  ("RAB-DataForwardingList", (256, "RAB-DataForwardingItemIEs"));  (* 614 *)
  ("RAB-SetupList-RelocReq", (256, "RAB-SetupItem-RelocReq-IEs"));  (* 702 *)
  ("RAB-SetupList-RelocReqAck", (256, "RAB-SetupItem-RelocReqAck-IEs"));  (* 818 *)
  ("RAB-FailedList", (256, "RAB-FailedItemIEs"));  (* 842 *)
  ("RAB-DataForwardingList-SRNS-CtxReq", (256, "RAB-DataForwardingItem-SRNS-CtxReq-IEs"));  (* 964 *)
  ("RAB-ContextList", (256, "RAB-ContextItemIEs"));  (* 1006 *)
  ("RABs-ContextFailedtoTransferList", (256, "RABs-ContextFailedtoTransferItemIEs"));  (* 1027 *)
  ("RAB-DataVolumeReportRequestList", (256, "RAB-DataVolumeReportRequestItemIEs"));  (* 1147 *)
  ("RABs-failed-to-reportList", (256, "RABs-failed-to-reportItemIEs"));  (* 1191 *)
  ("ResetResourceList", (250, "ResetResourceItemIEs"));  (* 1297 *)
  ("ResetResourceAckList", (250, "ResetResourceAckItemIEs"));  (* 1341 *)
  ("RAB-ReleaseList", (256, "RAB-ReleaseItemIEs"));  (* 1389 *)
  ("RAB-SetupList-EnhancedRelocCompleteReq", (256, "RAB-SetupItem-EnhancedRelocCompleteReq-IEs"));  (* 1525 *)
  ("RAB-SetupList-EnhancedRelocCompleteRes", (256, "RAB-SetupItem-EnhancedRelocCompleteRes-IEs"));  (* 1579 *)
  ("RAB-ToBeReleasedList-EnhancedRelocCompleteRes", (256, "RAB-ToBeReleasedItem-EnhancedRelocCompleteRes-IEs"));  (* 1603 *)
  ("RAB-SetupOrModifiedList", (256, "RAB-SetupOrModifiedItemIEs"));  (* 2263 *)
  ("RAB-ReleasedList", (256, "RAB-ReleasedItemIEs"));  (* 2285 *)
  ("RAB-QueuedList", (256, "RAB-QueuedItemIEs"));  (* 2318 *)
  ("RAB-ReleaseFailedList", (256, "RAB-FailedItemIEs"));  (* 2335 *)
  ("GERAN-Iumode-RAB-FailedList-RABAssgntResponse", (256, "GERAN-Iumode-RAB-Failed-RABAssgntResponse-ItemIEs"));  (* 2343 *)
  ("DirectTransferInformationList-RANAP-RelocInf", (15, "DirectTransferInformationItemIEs-RANAP-RelocInf"));  (* 2397 *)
  ("RAB-ContextList-RANAP-RelocInf", (256, "RAB-ContextItemIEs-RANAP-RelocInf"));  (* 2418 *)
  ("RAB-SetupList-EnhRelocInfoReq", (256, "RAB-SetupItem-EnhRelocInfoReq-IEs"));  (* 2479 *)
  ("RAB-SetupList-EnhRelocInfoRes", (256, "RAB-SetupItem-EnhRelocInfoRes-IEs"));  (* 2557 *)
  ("RAB-FailedList-EnhRelocInfoRes", (256, "RAB-FailedItem-EnhRelocInfoRes-IEs"));  (* 2577 *)
  ("RAB-ModifyList", (256, "RAB-ModifyItemIEs")) ].  (* 2632 *)

(* the lists of pairs: name of the type, greatest number of elements, object set of an
   element *)
Definition ranap_pairs : list (string * (Z * string)) := [
  ("RAB-SetupOrModifyList", (256, "RAB-SetupOrModifyItem-IEs")) ].  (* 2170 *)
(* the object sets of pairs: name, number, first criticality and type, second criticality
   and type, presence *)
Definition ranap_pair_sets : list (string * list (string * N * Z * string * Z * string * presence)) := [
  ("RAB-SetupOrModifyItem-IEs", [("id-RAB-SetupOrModifyItem", 53%N, 0, "RAB-SetupOrModifyItemFirst", 1, "RAB-SetupOrModifyItemSecond", Mandatory)]) ].  (* 2172 *)
