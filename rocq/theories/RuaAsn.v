(* Generated by a script from the modules asn1/rua/ that src/rua/Makefile.am
   compiles (RUA-CommonDataTypes.asn, RUA-Constants.asn, RUA-IEs.asn, RUA-PDU.asn): each entry
   is one type assignment, in the order of the files.  Numbers given to named
   integers are left out (they do not restrict the type), and so are the
   information object sets of SABP-IEs.asn, which define no type. *)
From Verif Require Import Base Asn1_spec.
From Coq Require Import String List.
Import ListNotations.
Local Open Scope Z_scope.
Local Open Scope string_scope.
Local Open Scope list_scope.

(* value assignments of asn1/rua/RUA-Constants.asn and the other modules, in their order *)
Definition rua_consts : list (string * Z) := [
  (* asn1/rua/RUA-Constants.asn *)
  ("maxPrivateIEs", 65535);
  ("maxProtocolExtensions", 65535);
  ("maxProtocolIEs", 65535);
  ("id-Connect", 1);
  ("id-DirectTransfer", 2);
  ("id-Disconnect", 3);
  ("id-ConnectionlessTransfer", 4);
  ("id-ErrorIndication", 5);
  ("id-privateMessage", 6);
  ("maxNrOfErrors", 256);
  ("id-Cause", 1);
  ("id-CriticalityDiagnostics", 2);
  ("id-Context-ID", 3);
  ("id-RANAP-Message", 4);
  ("id-IntraDomainNasNodeSelector", 5);
  ("id-Establishment-Cause", 6);
  ("id-CN-DomainIndicator", 7);
  ("id-CSGMembershipStatus", 9) ].

(* type assignments of the modules named in the header, in their order *)
Definition rua_common : list (string * asn) := [
  (* asn1/rua/RUA-CommonDataTypes.asn *)
  ("Criticality",
    (AEnum false ["reject"; "ignore"; "notify"] []));
  ("Presence",
    (AEnum false ["optional"; "conditional"; "mandatory"] []));
  ("ProcedureCode",
    (AInt (Some (Rng (Num (0)) (Num (255)) false))));
  ("PrivateIE-ID",
    (AChoice false [("local", (AInt (Some (Rng (Num (0)) (Num (65535)) false))));
      ("global", AOid)] []));
  ("ProtocolIE-ID",
    (AInt (Some (Rng (Num (0)) (Cst "maxProtocolIEs") false))));
  ("TriggeringMessage",
    (AEnum false ["initiating-message"; "successful-outcome"; "unsuccessful-outcome"] []));
  (* asn1/rua/RUA-IEs.asn *)
  ("IE-Extensions",
    (ASeqOf (Some (Rng (Num (1)) (Cst "maxProtocolExtensions") false)) (ARef "IE")));
  ("CN-DomainIndicator",
    (AEnum false ["cs-domain"; "ps-domain"] []));
  ("CSGMembershipStatus",
    (AEnum true ["member"; "non-member"] []));
  ("Establishment-Cause",
    (AEnum true ["emergency-call"; "normal-call"] []));
  ("Context-ID",
    (ABits (Some (Rng (Num (24)) (Num (24)) false))));
  ("IntraDomainNasNodeSelector",
    (ASeq false [("version", (false, (AChoice false [("release99", (ASeq false [("cn-Type", (false, (AChoice false [("gsm-Map-IDNNS", (ARef "Gsm-map-IDNNS"));
                  ("ansi-41-IDNNS", (ARef "Ansi-41-IDNNS"))] [])))] []));
          ("later", (ASeq false [("futurecoding", (false, (ABits (Some (Rng (Num (15)) (Num (15)) false)))))] []))] [])))] []));
  ("Gsm-map-IDNNS",
    (ASeq false [("routingbasis", (false, (AChoice false [("localPTMSI", (ASeq false [("routingparameter", (false, (ARef "RoutingParameter")))] []));
          ("tMSIofsamePLMN", (ASeq false [("routingparameter", (false, (ARef "RoutingParameter")))] []));
          ("tMSIofdifferentPLMN", (ASeq false [("routingparameter", (false, (ARef "RoutingParameter")))] []));
          ("iMSIresponsetopaging", (ASeq false [("routingparameter", (false, (ARef "RoutingParameter")))] []));
          ("iMSIcauseUEinitiatedEvent", (ASeq false [("routingparameter", (false, (ARef "RoutingParameter")))] []));
          ("iMEI", (ASeq false [("routingparameter", (false, (ARef "RoutingParameter")))] []));
          ("spare2", (ASeq false [("routingparameter", (false, (ARef "RoutingParameter")))] []));
          ("spare1", (ASeq false [("routingparameter", (false, (ARef "RoutingParameter")))] []))] [])));
      ("dummy", (false, ABool))] []));
  ("Ansi-41-IDNNS",
    (ABits (Some (Rng (Num (14)) (Num (14)) false))));
  ("RANAP-Message",
    (AOcts None));
  ("RoutingParameter",
    (ABits (Some (Rng (Num (10)) (Num (10)) false))));
  ("Cause",
    (AChoice true [("radioNetwork", (ARef "CauseRadioNetwork"));
      ("transport", (ARef "CauseTransport"));
      ("protocol", (ARef "CauseProtocol"));
      ("misc", (ARef "CauseMisc"))] []));
  ("CauseRadioNetwork",
    (AEnum true ["normal"; "connect-failed"; "network-release"; "unspecified"] []));
  ("CauseTransport",
    (AEnum true ["transport-resource-unavailable"; "unspecified"] []));
  ("CauseProtocol",
    (AEnum true ["transfer-syntax-error"; "abstract-syntax-error-reject"; "abstract-syntax-error-ignore-and-notify"; "message-not-compatible-with-receiver-state"; "semantic-error"; "unspecified"; "abstract-syntax-error-falsely-constructed-message"] []));
  ("CauseMisc",
    (AEnum true ["processing-overload"; "hardware-failure"; "o-and-m-intervention"; "unspecified"] []));
  ("CriticalityDiagnostics",
    (ASeq true [("procedureCode", (true, (ARef "ProcedureCode")));
      ("triggeringMessage", (true, (ARef "TriggeringMessage")));
      ("procedureCriticality", (true, (ARef "Criticality")));
      ("iEsCriticalityDiagnostics", (true, (ARef "CriticalityDiagnostics-IE-List")));
      ("iE-Extensions", (true, (ARef "IE-Extensions")))] []));
  ("CriticalityDiagnostics-IE-List",
    (ASeqOf (Some (Rng (Num (1)) (Cst "maxNrOfErrors") false)) (ARef "CriticalityDiagnostics-IE-List-Value")));
  ("CriticalityDiagnostics-IE-List-Value",
    (ASeq true [("iECriticality", (false, (ARef "Criticality")));
      ("iE-ID", (false, (ARef "ProtocolIE-ID")));
      ("typeOfError", (false, (ARef "TypeOfError")));
      ("iE-Extensions", (true, (ARef "IE-Extensions")))] []));
  ("TypeOfError",
    (AEnum true ["not-understood"; "missing"] [])) ].
(* the type assignments of asn1/rua/RUA-PDU.asn *)
Definition rua_compiled : list (string * asn) := [
  ("RUA-PDU",
    (AChoice true [("initiatingMessage", (ARef "InitiatingMessage"));
      ("successfulOutcome", (ARef "SuccessfulOutcome"));
      ("unsuccessfulOutcome", (ARef "UnsuccessfulOutcome"))] []));
  ("InitiatingMessage",
    (ASeq false [("procedureCode", (false, (ARef "ProcedureCode")));
      ("criticality", (false, (ARef "Criticality")));
      ("value", (false, AAny))] []));
  ("SuccessfulOutcome",
    (ASeq false [("procedureCode", (false, (ARef "ProcedureCode")));
      ("criticality", (false, (ARef "Criticality")));
      ("value", (false, AAny))] []));
  ("UnsuccessfulOutcome",
    (ASeq false [("procedureCode", (false, (ARef "ProcedureCode")));
      ("criticality", (false, (ARef "Criticality")));
      ("value", (false, AAny))] []));
  ("Connect",
    (ASeq true [("connect-ies", (false, (ASeqOf (Some (Rng (Num (0)) (Cst "maxProtocolIEs") false)) (ARef "IE"))))] []));
  ("DirectTransfer",
    (ASeq true [("directTransfer-ies", (false, (ASeqOf (Some (Rng (Num (0)) (Cst "maxProtocolIEs") false)) (ARef "IE"))))] []));
  ("Disconnect",
    (ASeq true [("disconnect-ies", (false, (ASeqOf (Some (Rng (Num (0)) (Cst "maxProtocolIEs") false)) (ARef "IE"))))] []));
  ("ConnectionlessTransfer",
    (ASeq true [("connectionlessTransfer-ies", (false, (ASeqOf (Some (Rng (Num (0)) (Cst "maxProtocolIEs") false)) (ARef "IE"))))] []));
  ("ErrorIndication",
    (ASeq true [("errorIndication-ies", (false, (ASeqOf (Some (Rng (Num (0)) (Cst "maxProtocolIEs") false)) (ARef "IE"))))] []));
  ("PrivateMessage",
    (ASeq true [("privateMessage-ies", (false, (ASeqOf (Some (Rng (Num (0)) (Cst "maxProtocolIEs") false)) (ARef "IE"))))] []));
  ("IE",
    (ASeq false [("id", (false, (ARef "ProtocolIE-ID")));
      ("criticality", (false, (ARef "Criticality")));
      ("value", (false, AAny))] [])) ].
(* asn1/rua/RUA-CommonDataTypes.asn, RUA-Constants.asn, RUA-IEs.asn, RUA-PDU.asn *)
Definition rua_asn_types : list (string * asn) := rua_common ++ rua_compiled.

(* both together *)
Definition rua_asn : grammar := Gram rua_asn_types rua_consts.
