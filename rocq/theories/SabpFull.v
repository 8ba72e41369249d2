(* Generated by a script from the unabridged modules of TS 25.419 in asn1/sabp/, which the
   build does not compile (SABP-Containers.asn, SABP-PDU-Contents.asn and
   SABP-PDU-Descriptions.asn): each entry is one type assignment, with the line.
   A reference to a parameterised type stands for that type with the bounds it is
   given; its information object set is left out, and a component whose type depends
   on it is an open type.  The types that SABP-CommonDataTypes.asn and SABP-IEs.asn
   define, and the type IE they use, are those of SabpAsn. *)
From Verif Require Import Base Asn1_spec Container SabpAsn.
From Coq Require Import String List.
Import ListNotations.
Local Open Scope Z_scope.
Local Open Scope string_scope.
Local Open Scope list_scope.

Definition sabp_contents : list (string * asn) := [
  (* SABP-Containers.asn:65 *)
  ("ProtocolIE-Container",
    (ASeqOf (Some (Rng (Num (0)) (Cst "maxProtocolIEs") false)) (ARef "ProtocolIE-Field")));
  (* SABP-Containers.asn:68 *)
  ("ProtocolIE-Field",
    (ASeq false [("id", (false, (ARef "ProtocolIE-ID")));
      ("criticality", (false, (ARef "Criticality")));
      ("value", (false, AAny))] []));
  (* SABP-Containers.asn:86 *)
  ("ProtocolExtensionContainer",
    (ASeqOf (Some (Rng (Num (1)) (Cst "maxProtocolExtensions") false)) (ARef "ProtocolExtensionField")));
  (* SABP-Containers.asn:89 *)
  ("ProtocolExtensionField",
    (ASeq false [("id", (false, (ARef "ProtocolExtensionID")));
      ("criticality", (false, (ARef "Criticality")));
      ("extensionValue", (false, AAny))] []));
  (* SABP-PDU-Contents.asn:69 *)
  ("Write-Replace",
    (ASeq true [("protocolIEs", (false, (ARef "ProtocolIE-Container")));
      ("protocolExtensions", (true, (ARef "ProtocolExtensionContainer")))] []));
  (* SABP-PDU-Contents.asn:101 *)
  ("Write-Replace-Complete",
    (ASeq true [("protocolIEs", (false, (ARef "ProtocolIE-Container")));
      ("protocolExtensions", (true, (ARef "ProtocolExtensionContainer")))] []));
  (* SABP-PDU-Contents.asn:124 *)
  ("Write-Replace-Failure",
    (ASeq true [("protocolIEs", (false, (ARef "ProtocolIE-Container")));
      ("protocolExtensions", (true, (ARef "ProtocolExtensionContainer")))] []));
  (* SABP-PDU-Contents.asn:148 *)
  ("Kill",
    (ASeq true [("protocolIEs", (false, (ARef "ProtocolIE-Container")));
      ("protocolExtensions", (true, (ARef "ProtocolExtensionContainer")))] []));
  (* SABP-PDU-Contents.asn:167 *)
  ("Kill-Complete",
    (ASeq true [("protocolIEs", (false, (ARef "ProtocolIE-Container")));
      ("protocolExtensions", (true, (ARef "ProtocolExtensionContainer")))] []));
  (* SABP-PDU-Contents.asn:190 *)
  ("Kill-Failure",
    (ASeq true [("protocolIEs", (false, (ARef "ProtocolIE-Container")));
      ("protocolExtensions", (true, (ARef "ProtocolExtensionContainer")))] []));
  (* SABP-PDU-Contents.asn:214 *)
  ("Load-Query",
    (ASeq true [("protocolIEs", (false, (ARef "ProtocolIE-Container")));
      ("protocolExtensions", (true, (ARef "ProtocolExtensionContainer")))] []));
  (* SABP-PDU-Contents.asn:231 *)
  ("Load-Query-Complete",
    (ASeq true [("protocolIEs", (false, (ARef "ProtocolIE-Container")));
      ("protocolExtensions", (true, (ARef "ProtocolExtensionContainer")))] []));
  (* SABP-PDU-Contents.asn:252 *)
  ("Load-Query-Failure",
    (ASeq true [("protocolIEs", (false, (ARef "ProtocolIE-Container")));
      ("protocolExtensions", (true, (ARef "ProtocolExtensionContainer")))] []));
  (* SABP-PDU-Contents.asn:274 *)
  ("Message-Status-Query",
    (ASeq true [("protocolIEs", (false, (ARef "ProtocolIE-Container")));
      ("protocolExtensions", (true, (ARef "ProtocolExtensionContainer")))] []));
  (* SABP-PDU-Contents.asn:293 *)
  ("Message-Status-Query-Complete",
    (ASeq true [("protocolIEs", (false, (ARef "ProtocolIE-Container")));
      ("protocolExtensions", (true, (ARef "ProtocolExtensionContainer")))] []));
  (* SABP-PDU-Contents.asn:316 *)
  ("Message-Status-Query-Failure",
    (ASeq true [("protocolIEs", (false, (ARef "ProtocolIE-Container")));
      ("protocolExtensions", (true, (ARef "ProtocolExtensionContainer")))] []));
  (* SABP-PDU-Contents.asn:340 *)
  ("Reset",
    (ASeq true [("protocolIEs", (false, (ARef "ProtocolIE-Container")));
      ("protocolExtensions", (true, (ARef "ProtocolExtensionContainer")))] []));
  (* SABP-PDU-Contents.asn:357 *)
  ("Reset-Complete",
    (ASeq true [("protocolIEs", (false, (ARef "ProtocolIE-Container")));
      ("protocolExtensions", (true, (ARef "ProtocolExtensionContainer")))] []));
  (* SABP-PDU-Contents.asn:376 *)
  ("Reset-Failure",
    (ASeq true [("protocolIEs", (false, (ARef "ProtocolIE-Container")));
      ("protocolExtensions", (true, (ARef "ProtocolExtensionContainer")))] []));
  (* SABP-PDU-Contents.asn:396 *)
  ("Restart",
    (ASeq true [("protocolIEs", (false, (ARef "ProtocolIE-Container")));
      ("protocolExtensions", (true, (ARef "ProtocolExtensionContainer")))] []));
  (* SABP-PDU-Contents.asn:414 *)
  ("Failure",
    (ASeq true [("protocolIEs", (false, (ARef "ProtocolIE-Container")));
      ("protocolExtensions", (true, (ARef "ProtocolExtensionContainer")))] []));
  (* SABP-PDU-Contents.asn:431 *)
  ("Error-Indication",
    (ASeq true [("protocolIEs", (false, (ARef "ProtocolIE-Container")));
      ("protocolExtensions", (true, (ARef "ProtocolExtensionContainer")))] []));
  (* SABP-PDU-Descriptions.asn:73 *)
  ("SABP-PDU",
    (AChoice true [("initiatingMessage", (ARef "InitiatingMessage"));
      ("successfulOutcome", (ARef "SuccessfulOutcome"));
      ("unsuccessfulOutcome", (ARef "UnsuccessfulOutcome"))] []));
  (* SABP-PDU-Descriptions.asn:79 *)
  ("InitiatingMessage",
    (ASeq false [("procedureCode", (false, (ARef "ProcedureCode")));
      ("criticality", (false, (ARef "Criticality")));
      ("value", (false, AAny))] []));
  (* SABP-PDU-Descriptions.asn:84 *)
  ("SuccessfulOutcome",
    (ASeq false [("procedureCode", (false, (ARef "ProcedureCode")));
      ("criticality", (false, (ARef "Criticality")));
      ("value", (false, AAny))] []));
  (* SABP-PDU-Descriptions.asn:89 *)
  ("UnsuccessfulOutcome",
    (ASeq false [("procedureCode", (false, (ARef "ProcedureCode")));
      ("criticality", (false, (ARef "Criticality")));
      ("value", (false, AAny))] []));
  (* SABP-PDU.asn:135; SABP-IEs.asn uses it *)
  ("IE",
    (ASeq false [("id", (false, (ARef "ProtocolIE-ID")));
      ("criticality", (false, (ARef "Criticality")));
      ("value", (false, AAny))] [])) ].
(* asn1/sabp/SABP-CommonDataTypes.asn, SABP-Constants.asn, SABP-IEs.asn, SABP-Containers.asn,
   SABP-PDU-Contents.asn, SABP-PDU-Descriptions.asn *)
Definition sabp_full : grammar := Gram (sabp_common ++ sabp_contents) sabp_consts.

(* the messages of SABP-PDU-Contents.asn: name of the type, object set of its IEs *)
Definition sabp_messages : list (string * string) := [
  ("Write-Replace", "Write-Replace-IEs");  (* 69 *)
  ("Write-Replace-Complete", "Write-Replace-Complete-IEs");  (* 101 *)
  ("Write-Replace-Failure", "Write-Replace-Failure-IEs");  (* 124 *)
  ("Kill", "Kill-IEs");  (* 148 *)
  ("Kill-Complete", "Kill-Complete-IEs");  (* 167 *)
  ("Kill-Failure", "Kill-Failure-IEs");  (* 190 *)
  ("Load-Query", "Load-Query-IEs");  (* 214 *)
  ("Load-Query-Complete", "Load-Query-Complete-IEs");  (* 231 *)
  ("Load-Query-Failure", "Load-Query-Failure-IEs");  (* 252 *)
  ("Message-Status-Query", "Message-Status-Query-IEs");  (* 274 *)
  ("Message-Status-Query-Complete", "Message-Status-Query-Complete-IEs");  (* 293 *)
  ("Message-Status-Query-Failure", "Message-Status-Query-Failure-IEs");  (* 316 *)
  ("Reset", "Reset-IEs");  (* 340 *)
  ("Reset-Complete", "Reset-Complete-IEs");  (* 357 *)
  ("Reset-Failure", "Reset-Failure-IEs");  (* 376 *)
  ("Restart", "Restart-IEs");  (* 396 *)
  ("Failure", "Failure-IEs");  (* 414 *)
  ("Error-Indication", "Error-Indication-IEs") ].  (* 431 *)
