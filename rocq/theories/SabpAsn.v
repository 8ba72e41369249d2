(* Generated by a script from the modules asn1/sabp/ that src/sabp/Makefile.am
   compiles (SABP-CommonDataTypes.asn, SABP-Constants.asn, SABP-IEs.asn, SABP-PDU.asn): each entry
   is one type assignment, in the order of the files.  Numbers given to named
   integers are left out (they do not restrict the type), and so are the
   information object sets of SABP-IEs.asn, which define no type. *)
From Verif Require Import Base Asn1_spec.
From Coq Require Import String List.
Import ListNotations.
Local Open Scope Z_scope.
Local Open Scope string_scope.
Local Open Scope list_scope.

(* value assignments of asn1/sabp/SABP-Constants.asn and the other modules, in their order *)
Definition sabp_consts : list (string * Z) := [
  (* asn1/sabp/SABP-Constants.asn *)
  ("id-Write-Replace", 0);
  ("id-Kill", 1);
  ("id-Load-Status-Enquiry", 2);
  ("id-Message-Status-Query", 3);
  ("id-Restart-Indication", 4);
  ("id-Reset", 5);
  ("id-Failure-Indication", 6);
  ("id-Error-Indication", 7);
  ("id-Broadcast-Message-Content", 0);
  ("id-Category", 1);
  ("id-Cause", 2);
  ("id-Criticality-Diagnostics", 3);
  ("id-Data-Coding-Scheme", 4);
  ("id-Failure-List", 5);
  ("id-Message-Identifier", 6);
  ("id-New-Serial-Number", 7);
  ("id-Number-of-Broadcasts-Completed-List", 8);
  ("id-Number-of-Broadcasts-Requested", 9);
  ("id-Old-Serial-Number", 10);
  ("id-Radio-Resource-Loading-List", 11);
  ("id-Recovery-Indication", 12);
  ("id-Repetition-Period", 13);
  ("id-Serial-Number", 14);
  ("id-Service-Areas-List", 15);
  ("id-MessageStructure", 16);
  ("id-TypeOfError", 17);
  ("id-Paging-ETWS-Indicator", 18);
  ("id-Warning-Type", 19);
  ("id-WarningSecurityInfo", 20);
  ("id-Broadcast-Message-Content-Validity-Indicator", 21);
  ("maxNrOfErrors", 256);
  ("maxnoofSAI", 65535);
  ("maxProtocolExtensions", 65535);
  ("maxProtocolIEs", 65535);
  ("maxNrOfLevels", 256) ].

(* type assignments of the modules named in the header, in their order *)
Definition sabp_common : list (string * asn) := [
  (* asn1/sabp/SABP-CommonDataTypes.asn *)
  ("Criticality",
    (AEnum false ["reject"; "ignore"; "notify"] []));
  ("Presence",
    (AEnum false ["optional"; "conditional"; "mandatory"] []));
  ("ProcedureCode",
    (AInt (Some (Rng (Num (0)) (Num (255)) false))));
  ("ProtocolExtensionID",
    (AInt (Some (Rng (Num (0)) (Num (65535)) false))));
  ("ProtocolIE-ID",
    (AInt (Some (Rng (Num (0)) (Num (65535)) false))));
  ("TriggeringMessage",
    (AEnum false ["initiating-message"; "successful-outcome"; "unsuccessful-outcome"; "outcome"] []));
  (* asn1/sabp/SABP-IEs.asn *)
  ("IE-Extensions",
    (ASeqOf (Some (Rng (Num (1)) (Cst "maxProtocolExtensions") false)) (ARef "IE")));
  ("Available-Bandwidth",
    (AInt (Some (Rng (Num (0)) (Num (20480)) false))));
  ("Broadcast-Message-Content",
    (ABits (Some (Rng (Num (1)) (Num (9968)) false))));
  ("Broadcast-Message-Content-Validity-Indicator",
    (AEnum true ["broadcast-Message-Content-not-valid"] []));
  ("Category",
    (AEnum true ["high-priority"; "background-priority"; "normal-priority"; "default-priority"] []));
  ("Cause",
    (AInt (Some (Rng (Num (0)) (Num (255)) false))));
  ("Criticality-Diagnostics",
    (ASeq true [("procedureCode", (true, (ARef "ProcedureCode")));
      ("triggeringMessage", (true, (ARef "TriggeringMessage")));
      ("procedureCriticality", (true, (ARef "Criticality")));
      ("iEsCriticalityDiagnostics", (true, (ARef "CriticalityDiagnostics-IE-List")));
      ("iE-Extensions", (true, (ARef "IE-Extensions")))] []));
  ("CriticalityDiagnostics-IE-List",
    (ASeqOf (Some (Rng (Num (1)) (Cst "maxNrOfErrors") false)) (ARef "CriticalityDiagnostics-IE-List-Value")));
  ("CriticalityDiagnostics-IE-List-Value",
    (ASeq true [("iECriticality", (false, (ARef "Criticality")));
      ("iE-ID", (false, (ARef "ProtocolIE-ID")));
      ("repetitionNumber", (true, (ARef "RepetitionNumber0")));
      ("iE-Extensions", (true, (ARef "IE-Extensions")))] []));
  ("MessageStructure",
    (ASeqOf (Some (Rng (Num (1)) (Cst "maxNrOfLevels") false)) (ARef "MessageStructure-Value")));
  ("MessageStructure-Value",
    (ASeq true [("iE-ID", (false, (ARef "ProtocolIE-ID")));
      ("repetitionNumber", (true, (ARef "RepetitionNumber1")));
      ("iE-Extensions", (true, (ARef "IE-Extensions")))] []));
  ("Data-Coding-Scheme",
    (ABits (Some (Rng (Num (8)) (Num (8)) false))));
  ("Failure-List",
    (ASeqOf (Some (Rng (Num (1)) (Cst "maxnoofSAI") false)) (ARef "Failure-List-Item")));
  ("Failure-List-Item",
    (ASeq true [("service-area-identifier", (false, (ARef "Service-Area-Identifier")));
      ("cause", (false, (ARef "Cause")));
      ("iE-Extensions", (true, (ARef "IE-Extensions")))] []));
  ("Message-Identifier",
    (ABits (Some (Rng (Num (16)) (Num (16)) false))));
  ("New-Serial-Number",
    (ARef "Serial-Number"));
  ("Number-of-Broadcasts-Completed-List",
    (ASeqOf (Some (Rng (Num (1)) (Cst "maxnoofSAI") false)) (ARef "Number-of-Broadcasts-Completed-List-Item")));
  ("Number-of-Broadcasts-Completed-List-Item",
    (ASeq true [("service-area-identifier", (false, (ARef "Service-Area-Identifier")));
      ("number-of-broadcasts-completed", (false, (AInt (Some (Rng (Num (0)) (Num (65535)) false)))));
      ("number-of-broadcasts-completed-info", (true, (ARef "Number-Of-Broadcasts-Completed-Info")));
      ("iE-Extensions", (true, (ARef "IE-Extensions")))] []));
  ("Number-Of-Broadcasts-Completed-Info",
    (AEnum true ["overflow"; "unknown"] []));
  ("Number-of-Broadcasts-Requested",
    (AInt (Some (Rng (Num (0)) (Num (65535)) false))));
  ("Old-Serial-Number",
    (ARef "Serial-Number"));
  ("Paging-ETWS-Indicator",
    (AEnum true ["paging"] []));
  ("Radio-Resource-Loading-List",
    (ASeqOf (Some (Rng (Num (1)) (Cst "maxnoofSAI") false)) (ARef "Radio-Resource-Loading-List-Item")));
  ("Radio-Resource-Loading-List-Item",
    (ASeq true [("service-area-identifier", (false, (ARef "Service-Area-Identifier")));
      ("available-bandwidth", (false, (ARef "Available-Bandwidth")));
      ("iE-Extensions", (true, (ARef "IE-Extensions")))] []));
  ("Recovery-Indication",
    (AEnum false ["data-lost"; "data-available"] []));
  ("RepetitionNumber0",
    (AInt (Some (Rng (Num (0)) (Num (255)) false))));
  ("RepetitionNumber1",
    (AInt (Some (Rng (Num (1)) (Num (256)) false))));
  ("Repetition-Period",
    (AInt (Some (Rng (Num (1)) (Num (4096)) false))));
  ("Serial-Number",
    (ABits (Some (Rng (Num (16)) (Num (16)) false))));
  ("Service-Area-Identifier",
    (ASeq false [("pLMNidentity", (false, (AOcts (Some (Rng (Num (3)) (Num (3)) false)))));
      ("lac", (false, (AOcts (Some (Rng (Num (2)) (Num (2)) false)))));
      ("sac", (false, (AOcts (Some (Rng (Num (2)) (Num (2)) false)))))] []));
  ("Service-Areas-List",
    (ASeqOf (Some (Rng (Num (1)) (Cst "maxnoofSAI") false)) (ARef "Service-Area-Identifier")));
  ("TypeOfError",
    (AEnum true ["not-understood"; "missing"] []));
  ("WarningSecurityInfo",
    (AOcts (Some (Rng (Num (50)) (Num (50)) false))));
  ("Warning-Type",
    (AOcts (Some (Rng (Num (2)) (Num (2)) false)))) ].
(* the type assignments of asn1/sabp/SABP-PDU.asn *)
Definition sabp_compiled : list (string * asn) := [
  ("SABP-PDU",
    (AChoice true [("initiatingMessage", (ARef "InitiatingMessage"));
      ("successfulOutcome", (ARef "SuccessfulOutcome"));
      ("unsuccessfulOutcome", (ARef "UnsuccessfulOutcome"))] []));
  ("InitiatingMessage",
    (ASeq false [("procedureCode", (false, (ARef "ProcedureCode")));
      ("criticality", (false, (ARef "Criticality")));
      ("value", (false, AAny))] []));
  ("SuccessfulOutcome",
    (ASeq false [("procedureCode", (false, (ARef "ProcedureCode")));
      ("criticality", (false, (ARef "Criticality")));
      ("value", (false, AAny))] []));
  ("UnsuccessfulOutcome",
    (ASeq false [("procedureCode", (false, (ARef "ProcedureCode")));
      ("criticality", (false, (ARef "Criticality")));
      ("value", (false, AAny))] []));
  ("Write-Replace",
    (ASeq true [("write-Replace-ies", (false, (ASeqOf (Some (Rng (Num (0)) (Cst "maxProtocolIEs") false)) (ARef "IE"))))] []));
  ("Write-Replace-Complete",
    (ASeq true [("write-Replace-Complete-ies", (false, (ASeqOf (Some (Rng (Num (0)) (Cst "maxProtocolIEs") false)) (ARef "IE"))))] []));
  ("Write-Replace-Failure",
    (ASeq true [("write-Replace-Failure-ies", (false, (ASeqOf (Some (Rng (Num (0)) (Cst "maxProtocolIEs") false)) (ARef "IE"))))] []));
  ("Kill",
    (ASeq true [("kill-ies", (false, (ASeqOf (Some (Rng (Num (0)) (Cst "maxProtocolIEs") false)) (ARef "IE"))))] []));
  ("Kill-Complete",
    (ASeq true [("kill-Complete-ies", (false, (ASeqOf (Some (Rng (Num (0)) (Cst "maxProtocolIEs") false)) (ARef "IE"))))] []));
  ("Kill-Failure",
    (ASeq true [("kill-Failure-ies", (false, (ASeqOf (Some (Rng (Num (0)) (Cst "maxProtocolIEs") false)) (ARef "IE"))))] []));
  ("Load-Query",
    (ASeq true [("load-Query-ies", (false, (ASeqOf (Some (Rng (Num (0)) (Cst "maxProtocolIEs") false)) (ARef "IE"))))] []));
  ("Load-Query-Complete",
    (ASeq true [("load-Query-Complete-ies", (false, (ASeqOf (Some (Rng (Num (0)) (Cst "maxProtocolIEs") false)) (ARef "IE"))))] []));
  ("Load-Query-Failure",
    (ASeq true [("load-Query-Failure-ies", (false, (ASeqOf (Some (Rng (Num (0)) (Cst "maxProtocolIEs") false)) (ARef "IE"))))] []));
  ("Message-Status-Query",
    (ASeq true [("message-Status-Query-ies", (false, (ASeqOf (Some (Rng (Num (0)) (Cst "maxProtocolIEs") false)) (ARef "IE"))))] []));
  ("Message-Status-Query-Complete",
    (ASeq true [("message-Status-Query-Complete-ies", (false, (ASeqOf (Some (Rng (Num (0)) (Cst "maxProtocolIEs") false)) (ARef "IE"))))] []));
  ("Message-Status-Query-Failure",
    (ASeq true [("message-Status-Query-Failure-ies", (false, (ASeqOf (Some (Rng (Num (0)) (Cst "maxProtocolIEs") false)) (ARef "IE"))))] []));
  ("Reset",
    (ASeq true [("reset-ies", (false, (ASeqOf (Some (Rng (Num (0)) (Cst "maxProtocolIEs") false)) (ARef "IE"))))] []));
  ("Reset-Complete",
    (ASeq true [("reset-Complete-ies", (false, (ASeqOf (Some (Rng (Num (0)) (Cst "maxProtocolIEs") false)) (ARef "IE"))))] []));
  ("Reset-Failure",
    (ASeq true [("reset-Failure-ies", (false, (ASeqOf (Some (Rng (Num (0)) (Cst "maxProtocolIEs") false)) (ARef "IE"))))] []));
  ("Restart",
    (ASeq true [("restart-ies", (false, (ASeqOf (Some (Rng (Num (0)) (Cst "maxProtocolIEs") false)) (ARef "IE"))))] []));
  ("Failure",
    (ASeq true [("failure-ies", (false, (ASeqOf (Some (Rng (Num (0)) (Cst "maxProtocolIEs") false)) (ARef "IE"))))] []));
  ("Error-Indication",
    (ASeq true [("error-Indication-ies", (false, (ASeqOf (Some (Rng (Num (0)) (Cst "maxProtocolIEs") false)) (ARef "IE"))))] []));
  ("IE",
    (ASeq false [("id", (false, (ARef "ProtocolIE-ID")));
      ("criticality", (false, (ARef "Criticality")));
      ("value", (false, AAny))] [])) ].
(* asn1/sabp/SABP-CommonDataTypes.asn, SABP-Constants.asn, SABP-IEs.asn, SABP-PDU.asn *)
Definition sabp_asn_types : list (string * asn) := sabp_common ++ sabp_compiled.

(* both together *)
Definition sabp_asn : grammar := Gram sabp_asn_types sabp_consts.
