(* Generated by a script from the unabridged modules of TS 25.468 in asn1/rua/, which the
   build does not compile (RUA-Containers.asn, RUA-PDU-Contents.asn and
   RUA-PDU-Descriptions.asn): each entry is one type assignment, with the line.
   A reference to a parameterised type stands for that type with the bounds it is
   given; its information object set is left out, and a component whose type depends
   on it is an open type.  The types that RUA-CommonDataTypes.asn and RUA-IEs.asn
   define, and the type IE they use, are those of RuaAsn. *)
From Verif Require Import Base Asn1_spec Container RuaAsn.
From Coq Require Import String List.
Import ListNotations.
Local Open Scope Z_scope.
Local Open Scope string_scope.
Local Open Scope list_scope.

Definition rua_contents : list (string * asn) := [
  (* RUA-Containers.asn:96 *)
  ("ProtocolIE-Container",
    (ASeqOf (Some (Rng (Num (0)) (Cst "maxProtocolIEs") false)) (ARef "ProtocolIE-Field")));
  (* RUA-Containers.asn:103 *)
  ("ProtocolIE-Field",
    (ASeq false [("id", (false, (ARef "ProtocolIE-ID")));
      ("criticality", (false, (ARef "Criticality")));
      ("value", (false, AAny))] []));
  (* RUA-Containers.asn:125 *)
  ("ProtocolExtensionContainer",
    (ASeqOf (Some (Rng (Num (1)) (Cst "maxProtocolExtensions") false)) (ARef "ProtocolExtensionField")));
  (* RUA-Containers.asn:129 *)
  ("ProtocolExtensionField",
    (ASeq false [("id", (false, (ARef "ProtocolIE-ID")));
      ("criticality", (false, (ARef "Criticality")));
      ("extensionValue", (false, AAny))] []));
  (* RUA-Containers.asn:142 *)
  ("PrivateIE-Container",
    (ASeqOf (Some (Rng (Num (1)) (Cst "maxPrivateIEs") false)) (ARef "PrivateIE-Field")));
  (* RUA-Containers.asn:146 *)
  ("PrivateIE-Field",
    (ASeq false [("id", (false, (ARef "PrivateIE-ID")));
      ("criticality", (false, (ARef "Criticality")));
      ("value", (false, AAny))] []));
  (* RUA-PDU-Contents.asn:62 *)
  ("Connect",
    (ASeq true [("protocolIEs", (false, (ARef "ProtocolIE-Container")));
      ("protocolExtensions", (true, (ARef "ProtocolExtensionContainer")))] []));
  (* RUA-PDU-Contents.asn:89 *)
  ("DirectTransfer",
    (ASeq true [("protocolIEs", (false, (ARef "ProtocolIE-Container")));
      ("protocolExtensions", (true, (ARef "ProtocolExtensionContainer")))] []));
  (* RUA-PDU-Contents.asn:114 *)
  ("Disconnect",
    (ASeq true [("protocolIEs", (false, (ARef "ProtocolIE-Container")));
      ("protocolExtensions", (true, (ARef "ProtocolExtensionContainer")))] []));
  (* RUA-PDU-Contents.asn:139 *)
  ("ConnectionlessTransfer",
    (ASeq true [("protocolIEs", (false, (ARef "ProtocolIE-Container")));
      ("protocolExtensions", (true, (ARef "ProtocolExtensionContainer")))] []));
  (* RUA-PDU-Contents.asn:163 *)
  ("ErrorIndication",
    (ASeq true [("protocolIEs", (false, (ARef "ProtocolIE-Container")));
      ("protocolExtensions", (true, (ARef "ProtocolExtensionContainer")))] []));
  (* RUA-PDU-Contents.asn:185 *)
  ("PrivateMessage",
    (ASeq true [("privateIEs", (false, (ARef "PrivateIE-Container")))] []));
  (* RUA-PDU-Descriptions.asn:70 *)
  ("RUA-PDU",
    (AChoice true [("initiatingMessage", (ARef "InitiatingMessage"));
      ("successfulOutcome", (ARef "SuccessfulOutcome"));
      ("unsuccessfulOutcome", (ARef "UnsuccessfulOutcome"))] []));
  (* RUA-PDU-Descriptions.asn:78 *)
  ("InitiatingMessage",
    (ASeq false [("procedureCode", (false, (ARef "ProcedureCode")));
      ("criticality", (false, (ARef "Criticality")));
      ("value", (false, AAny))] []));
  (* RUA-PDU-Descriptions.asn:84 *)
  ("SuccessfulOutcome",
    (ASeq false [("procedureCode", (false, (ARef "ProcedureCode")));
      ("criticality", (false, (ARef "Criticality")));
      ("value", (false, AAny))] []));
  (* RUA-PDU-Descriptions.asn:90 *)
  ("UnsuccessfulOutcome",
    (ASeq false [("procedureCode", (false, (ARef "ProcedureCode")));
      ("criticality", (false, (ARef "Criticality")));
      ("value", (false, AAny))] []));
  (* RUA-PDU.asn:74; RUA-IEs.asn uses it *)
  ("IE",
    (ASeq false [("id", (false, (ARef "ProtocolIE-ID")));
      ("criticality", (false, (ARef "Criticality")));
      ("value", (false, AAny))] [])) ].
(* asn1/rua/RUA-CommonDataTypes.asn, RUA-Constants.asn, RUA-IEs.asn, RUA-Containers.asn,
   RUA-PDU-Contents.asn, RUA-PDU-Descriptions.asn *)
Definition rua_full : grammar := Gram (rua_common ++ rua_contents) rua_consts.

(* the messages of RUA-PDU-Contents.asn: name of the type, object set of its IEs *)
Definition rua_messages : list (string * string) := [
  ("Connect", "ConnectIEs");  (* 62 *)
  ("DirectTransfer", "DirectTransferIEs");  (* 89 *)
  ("Disconnect", "DisconnectIEs");  (* 114 *)
  ("ConnectionlessTransfer", "ConnectionlessTransferIEs");  (* 139 *)
  ("ErrorIndication", "ErrorIndicationIEs") ].  (* 163 *)
