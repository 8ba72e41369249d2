(* Generated by a script from the unabridged modules of TS 25.469 in asn1/hnbap/, which the
   build does not compile (HNBAP-Containers.asn, HNBAP-PDU-Contents.asn and
   HNBAP-PDU-Descriptions.asn): each entry is one type assignment, with the line.
   A reference to a parameterised type stands for that type with the bounds it is
   given; its information object set is left out, and a component whose type depends
   on it is an open type.  The types that HNBAP-CommonDataTypes.asn and HNBAP-IEs.asn
   define, and the type IE they use, are those of HnbapAsn. *)
From Verif Require Import Base Asn1_spec Container HnbapAsn.
From Coq Require Import String List.
Import ListNotations.
Local Open Scope Z_scope.
Local Open Scope string_scope.
Local Open Scope list_scope.

Definition hnbap_contents : list (string * asn) := [
  (* HNBAP-Containers.asn:94 *)
  ("ProtocolIE-Container",
    (ASeqOf (Some (Rng (Num (0)) (Cst "maxProtocolIEs") false)) (ARef "ProtocolIE-Field")));
  (* HNBAP-Containers.asn:101 *)
  ("ProtocolIE-Field",
    (ASeq false [("id", (false, (ARef "ProtocolIE-ID")));
      ("criticality", (false, (ARef "Criticality")));
      ("value", (false, AAny))] []));
  (* HNBAP-Containers.asn:123 *)
  ("ProtocolExtensionContainer",
    (ASeqOf (Some (Rng (Num (1)) (Cst "maxProtocolExtensions") false)) (ARef "ProtocolExtensionField")));
  (* HNBAP-Containers.asn:127 *)
  ("ProtocolExtensionField",
    (ASeq false [("id", (false, (ARef "ProtocolIE-ID")));
      ("criticality", (false, (ARef "Criticality")));
      ("extensionValue", (false, AAny))] []));
  (* HNBAP-Containers.asn:139 *)
  ("PrivateIE-Container",
    (ASeqOf (Some (Rng (Num (1)) (Cst "maxPrivateIEs") false)) (ARef "PrivateIE-Field")));
  (* HNBAP-Containers.asn:143 *)
  ("PrivateIE-Field",
    (ASeq false [("id", (false, (ARef "PrivateIE-ID")));
      ("criticality", (false, (ARef "Criticality")));
      ("value", (false, AAny))] []));
  (* HNBAP-PDU-Contents.asn:129 *)
  ("HNBRegisterRequest",
    (ASeq true [("protocolIEs", (false, (ARef "ProtocolIE-Container")));
      ("protocolExtensions", (true, (ARef "ProtocolExtensionContainer")))] []));
  (* HNBAP-PDU-Contents.asn:166 *)
  ("HNBRegisterAccept",
    (ASeq true [("protocolIEs", (false, (ARef "ProtocolIE-Container")));
      ("protocolExtensions", (true, (ARef "ProtocolExtensionContainer")))] []));
  (* HNBAP-PDU-Contents.asn:191 *)
  ("HNBRegisterReject",
    (ASeq true [("protocolIEs", (false, (ARef "ProtocolIE-Container")));
      ("protocolExtensions", (true, (ARef "ProtocolExtensionContainer")))] []));
  (* HNBAP-PDU-Contents.asn:217 *)
  ("HNBDe-Register",
    (ASeq true [("protocolIEs", (false, (ARef "ProtocolIE-Container")));
      ("protocolExtensions", (true, (ARef "ProtocolExtensionContainer")))] []));
  (* HNBAP-PDU-Contents.asn:241 *)
  ("UERegisterRequest",
    (ASeq true [("protocolIEs", (false, (ARef "ProtocolIE-Container")));
      ("protocolExtensions", (true, (ARef "ProtocolExtensionContainer")))] []));
  (* HNBAP-PDU-Contents.asn:264 *)
  ("UERegisterAccept",
    (ASeq true [("protocolIEs", (false, (ARef "ProtocolIE-Container")));
      ("protocolExtensions", (true, (ARef "ProtocolExtensionContainer")))] []));
  (* HNBAP-PDU-Contents.asn:288 *)
  ("UERegisterReject",
    (ASeq true [("protocolIEs", (false, (ARef "ProtocolIE-Container")));
      ("protocolExtensions", (true, (ARef "ProtocolExtensionContainer")))] []));
  (* HNBAP-PDU-Contents.asn:312 *)
  ("UEDe-Register",
    (ASeq true [("protocolIEs", (false, (ARef "ProtocolIE-Container")));
      ("protocolExtensions", (true, (ARef "ProtocolExtensionContainer")))] []));
  (* HNBAP-PDU-Contents.asn:334 *)
  ("CSGMembershipUpdate",
    (ASeq true [("protocolIEs", (false, (ARef "ProtocolIE-Container")));
      ("protocolExtensions", (true, (ARef "ProtocolExtensionContainer")))] []));
  (* HNBAP-PDU-Contents.asn:356 *)
  ("TNLUpdateRequest",
    (ASeq true [("protocolIEs", (false, (ARef "ProtocolIE-Container")));
      ("protocolExtensions", (true, (ARef "ProtocolExtensionContainer")))] []));
  (* HNBAP-PDU-Contents.asn:379 *)
  ("TNLUpdateResponse",
    (ASeq true [("protocolIEs", (false, (ARef "ProtocolIE-Container")));
      ("protocolExtensions", (true, (ARef "ProtocolExtensionContainer")))] []));
  (* HNBAP-PDU-Contents.asn:400 *)
  ("TNLUpdateFailure",
    (ASeq true [("protocolIEs", (false, (ARef "ProtocolIE-Container")));
      ("protocolExtensions", (true, (ARef "ProtocolExtensionContainer")))] []));
  (* HNBAP-PDU-Contents.asn:423 *)
  ("HNBConfigTransferRequest",
    (ASeq true [("protocolIEs", (false, (ARef "ProtocolIE-Container")));
      ("protocolExtensions", (true, (ARef "ProtocolExtensionContainer")))] []));
  (* HNBAP-PDU-Contents.asn:444 *)
  ("HNBConfigTransferResponse",
    (ASeq true [("protocolIEs", (false, (ARef "ProtocolIE-Container")));
      ("protocolExtensions", (true, (ARef "ProtocolExtensionContainer")))] []));
  (* HNBAP-PDU-Contents.asn:466 *)
  ("RelocationComplete",
    (ASeq true [("protocolIEs", (false, (ARef "ProtocolIE-Container")));
      ("protocolExtensions", (true, (ARef "ProtocolExtensionContainer")))] []));
  (* HNBAP-PDU-Contents.asn:488 *)
  ("ErrorIndication",
    (ASeq true [("protocolIEs", (false, (ARef "ProtocolIE-Container")));
      ("protocolExtensions", (true, (ARef "ProtocolExtensionContainer")))] []));
  (* HNBAP-PDU-Contents.asn:510 *)
  ("PrivateMessage",
    (ASeq true [("privateIEs", (false, (ARef "PrivateIE-Container")))] []));
  (* HNBAP-PDU-Contents.asn:525 *)
  ("U-RNTIQueryRequest",
    (ASeq true [("protocolIEs", (false, (ARef "ProtocolIE-Container")));
      ("protocolExtensions", (true, (ARef "ProtocolExtensionContainer")))] []));
  (* HNBAP-PDU-Contents.asn:546 *)
  ("U-RNTIQueryResponse",
    (ASeq true [("protocolIEs", (false, (ARef "ProtocolIE-Container")));
      ("protocolExtensions", (true, (ARef "ProtocolExtensionContainer")))] []));
  (* HNBAP-PDU-Descriptions.asn:89 *)
  ("HNBAP-PDU",
    (AChoice true [("initiatingMessage", (ARef "InitiatingMessage"));
      ("successfulOutcome", (ARef "SuccessfulOutcome"));
      ("unsuccessfulOutcome", (ARef "UnsuccessfulOutcome"))] []));
  (* HNBAP-PDU-Descriptions.asn:97 *)
  ("InitiatingMessage",
    (ASeq false [("procedureCode", (false, (ARef "ProcedureCode")));
      ("criticality", (false, (ARef "Criticality")));
      ("value", (false, AAny))] []));
  (* HNBAP-PDU-Descriptions.asn:103 *)
  ("SuccessfulOutcome",
    (ASeq false [("procedureCode", (false, (ARef "ProcedureCode")));
      ("criticality", (false, (ARef "Criticality")));
      ("value", (false, AAny))] []));
  (* HNBAP-PDU-Descriptions.asn:109 *)
  ("UnsuccessfulOutcome",
    (ASeq false [("procedureCode", (false, (ARef "ProcedureCode")));
      ("criticality", (false, (ARef "Criticality")));
      ("value", (false, AAny))] []));
  (* HNBAP-PDU.asn:140; HNBAP-IEs.asn uses it *)
  ("IE",
    (ASeq false [("id", (false, (ARef "ProtocolIE-ID")));
      ("criticality", (false, (ARef "Criticality")));
      ("value", (false, AAny))] [])) ].
(* asn1/hnbap/HNBAP-CommonDataTypes.asn, HNBAP-Constants.asn, HNBAP-IEs.asn, HNBAP-Containers.asn,
   HNBAP-PDU-Contents.asn, HNBAP-PDU-Descriptions.asn *)
Definition hnbap_full : grammar := Gram (hnbap_common ++ hnbap_contents) hnbap_consts.

(* the messages of HNBAP-PDU-Contents.asn: name of the type, object set of its IEs *)
Definition hnbap_messages : list (string * string) := [
  ("HNBRegisterRequest", "HNBRegisterRequestIEs");  (* 129 *)
  ("HNBRegisterAccept", "HNBRegisterAcceptIEs");  (* 166 *)
  ("HNBRegisterReject", "HNBRegisterRejectIEs");  (* 191 *)
  ("HNBDe-Register", "HNBDe-RegisterIEs");  (* 217 *)
  ("UERegisterRequest", "UERegisterRequestIEs");  (* 241 *)
  ("UERegisterAccept", "UERegisterAcceptIEs");  (* 264 *)
  ("UERegisterReject", "UERegisterRejectIEs");  (* 288 *)
  ("UEDe-Register", "UEDe-RegisterIEs");  (* 312 *)
  ("CSGMembershipUpdate", "CSGMembershipUpdateIEs");  (* 334 *)
  ("TNLUpdateRequest", "TNLUpdateRequestIEs");  (* 356 *)
  ("TNLUpdateResponse", "TNLUpdateResponseIEs");  (* 379 *)
  ("TNLUpdateFailure", "TNLUpdateFailureIEs");  (* 400 *)
  ("HNBConfigTransferRequest", "HNBConfigTransferRequestIEs");  (* 423 *)
  ("HNBConfigTransferResponse", "HNBConfigTransferResponseIEs");  (* 444 *)
  ("RelocationComplete", "RelocationCompleteIEs");  (* 466 *)
  ("ErrorIndication", "ErrorIndicationIEs");  (* 488 *)
  ("U-RNTIQueryRequest", "U-RNTIQueryRequestIEs");  (* 525 *)
  ("U-RNTIQueryResponse", "U-RNTIQueryResponseIEs") ].  (* 546 *)
