(* Generated by a script from the modules asn1/hnbap/ that src/hnbap/Makefile.am
   compiles (HNBAP-CommonDataTypes.asn, HNBAP-Constants.asn, HNBAP-IEs.asn, HNBAP-PDU.asn): each entry
   is one type assignment, in the order of the files.  Numbers given to named
   integers are left out (they do not restrict the type), and so are the
   information object sets of SABP-IEs.asn, which define no type. *)
From Verif Require Import Base Asn1_spec.
From Coq Require Import String List.
Import ListNotations.
Local Open Scope Z_scope.
Local Open Scope string_scope.
Local Open Scope list_scope.

(* value assignments of asn1/hnbap/HNBAP-Constants.asn and the other modules, in their order *)
Definition hnbap_consts : list (string * Z) := [
  (* asn1/hnbap/HNBAP-Constants.asn *)
  ("maxPrivateIEs", 65535);
  ("maxProtocolExtensions", 65535);
  ("maxProtocolIEs", 65535);
  ("id-HNBRegister", 1);
  ("id-HNBDe-Register", 2);
  ("id-UERegister", 3);
  ("id-UEDe-Register", 4);
  ("id-ErrorIndication", 5);
  ("id-privateMessage", 6);
  ("id-CSGMembershipUpdate", 7);
  ("id-TNLUpdate", 9);
  ("id-HNBConfigTransfer", 10);
  ("id-RelocationComplete", 11);
  ("id-U-RNTIQuery", 14);
  ("maxNrOfErrors", 256);
  ("maxnoofRABs", 256);
  ("maxnoofAdditionalNeighbours", 128);
  ("maxnoofURAIdentities", 8);
  ("maxnoofNeighbours", 32);
  ("maxnoofIurhAddresses", 3);
  ("id-Cause", 1);
  ("id-CriticalityDiagnostics", 2);
  ("id-HNB-Identity", 3);
  ("id-Context-ID", 4);
  ("id-UE-Identity", 5);
  ("id-LAC", 6);
  ("id-RAC", 7);
  ("id-HNB-Location-Information", 8);
  ("id-PLMNidentity", 9);
  ("id-SAC", 10);
  ("id-CellIdentity", 11);
  ("id-Registration-Cause", 12);
  ("id-UE-Capabilities", 13);
  ("id-RNC-ID", 14);
  ("id-CSG-ID", 15);
  ("id-BackoffTimer", 16);
  ("id-HNB-Internet-Information", 17);
  ("id-HNB-Cell-Access-Mode", 18);
  ("id-MuxPortNumber", 19);
  ("id-Service-Area-For-Broadcast", 20);
  ("id-CSGMembershipStatus", 21);
  ("id-RABList", 22);
  ("id-HNBConfigInfo", 23);
  ("id-AccessResult", 25);
  ("id-Update-cause", 26);
  ("id-NeighbourInfoList", 27);
  ("id-NeighbourInfoRequestList", 28);
  ("id-Iurh-Signalling-TNL-Address", 29);
  ("id-PSC", 30);
  ("id-HNB-Cell-Identifier", 31);
  ("id-Tunnel-Information", 41);
  ("id-CELL-FACHMobilitySupport", 42);
  ("id-S-RNTIPrefix", 43);
  ("id-URAIdentity", 44);
  ("id-NeighbourIdentity", 45);
  ("id-HNBCapacity", 46);
  ("id-NeighbourCellIdentityList", 47);
  ("id-AdditionalNeighbourInfoList", 48);
  ("id-U-RNTI", 49);
  ("id-UnknownU-RNTIIndication", 50);
  ("id-HNB-GWResponse", 51);
  ("id-URAIdentityList", 52) ].

(* type assignments of the modules named in the header, in their order *)
Definition hnbap_common : list (string * asn) := [
  (* asn1/hnbap/HNBAP-CommonDataTypes.asn *)
  ("Criticality",
    (AEnum false ["reject"; "ignore"; "notify"] []));
  ("Presence",
    (AEnum false ["optional"; "conditional"; "mandatory"] []));
  ("PrivateIE-ID",
    (AChoice false [("local", (AInt (Some (Rng (Num (0)) (Num (65535)) false))));
      ("global", AOid)] []));
  ("ProcedureCode",
    (AInt (Some (Rng (Num (0)) (Num (255)) false))));
  ("ProtocolIE-ID",
    (AInt (Some (Rng (Num (0)) (Cst "maxProtocolIEs") false))));
  ("TriggeringMessage",
    (AEnum false ["initiating-message"; "successful-outcome"; "unsuccessful-outcome"] []));
  (* asn1/hnbap/HNBAP-IEs.asn *)
  ("IE-Extensions",
    (ASeqOf (Some (Rng (Num (1)) (Cst "maxProtocolExtensions") false)) (ARef "IE")));
  ("Access-stratum-release-indicator",
    (AEnum true ["r99"; "rel-4"; "rel-5"; "rel-6"; "rel-7"; "rel-8-and-beyond"] []));
  ("AccessResult",
    (AEnum true ["allowed"; "notAllowed"] []));
  ("AltitudeAndDirection",
    (ASeq true [("directionOfAltitude", (false, (AEnum false ["height"; "depth"] [])));
      ("altitude", (false, (AInt (Some (Rng (Num (0)) (Num (32767)) false)))))] []));
  ("BackoffTimer",
    (AInt (Some (Rng (Num (0)) (Num (3600)) false))));
  ("BindingID",
    (AOcts (Some (Rng (Num (1)) (Num (4)) true))));
  ("Cause",
    (AChoice true [("radioNetwork", (ARef "CauseRadioNetwork"));
      ("transport", (ARef "CauseTransport"));
      ("protocol", (ARef "CauseProtocol"));
      ("misc", (ARef "CauseMisc"))] []));
  ("CauseRadioNetwork",
    (AEnum true ["overload"; "unauthorised-Location"; "unauthorised-HNB"; "hNB-parameter-mismatch"; "invalid-UE-identity"; "uE-not-allowed-on-this-HNB"; "uE-unauthorised"; "connection-with-UE-lost"; "ue-RRC-release"; "hNB-not-registered"; "unspecified"; "normal"; "uE-relocated"; "ue-registered-in-another-HNB"] ["no-neighbour-information-available"; "iurh-connection-to-that-neighbour-not-Allowed"]));
  ("CauseTransport",
    (AEnum true ["transport-resource-unavailable"; "unspecified"] []));
  ("CauseProtocol",
    (AEnum true ["transfer-syntax-error"; "abstract-syntax-error-reject"; "abstract-syntax-error-ignore-and-notify"; "message-not-compatible-with-receiver-state"; "semantic-error"; "unspecified"; "abstract-syntax-error-falsely-constructed-message"] []));
  ("CauseMisc",
    (AEnum true ["processing-overload"; "hardware-failure"; "o-and-m-intervention"; "unspecified"] []));
  ("CellIdentity",
    (ABits (Some (Rng (Num (28)) (Num (28)) false))));
  ("CELL-FACHMobilitySupport",
    (AEnum true ["supported"] []));
  ("Context-ID",
    (ABits (Some (Rng (Num (24)) (Num (24)) false))));
  ("CriticalityDiagnostics",
    (ASeq true [("procedureCode", (true, (ARef "ProcedureCode")));
      ("triggeringMessage", (true, (ARef "TriggeringMessage")));
      ("procedureCriticality", (true, (ARef "Criticality")));
      ("iEsCriticalityDiagnostics", (true, (ARef "CriticalityDiagnostics-IE-List")));
      ("iE-Extensions", (true, (ARef "IE-Extensions")))] []));
  ("CriticalityDiagnostics-IE-List",
    (ASeqOf (Some (Rng (Num (1)) (Cst "maxNrOfErrors") false)) (ARef "CriticalityDiagnostics-IE-List-Value")));
  ("CriticalityDiagnostics-IE-List-Value",
    (ASeq true [("iECriticality", (false, (ARef "Criticality")));
      ("iE-ID", (false, (ARef "ProtocolIE-ID")));
      ("typeOfError", (false, (ARef "TypeOfError")));
      ("iE-Extensions", (true, (ARef "IE-Extensions")))] []));
  ("CSG-ID",
    (ABits (Some (Rng (Num (27)) (Num (27)) false))));
  ("CSG-Capability",
    (AEnum true ["csg-capable"; "not-csg-capable"] []));
  ("CSGMembershipStatus",
    (AEnum true ["member"; "non-member"] []));
  ("CGI",
    (ASeq false [("pLMNidentity", (false, (ARef "PLMNidentity")));
      ("lAC", (false, (ARef "LAC")));
      ("cI", (false, (ARef "CI")));
      ("iE-Extensions", (true, (ARef "IE-Extensions")))] []));
  ("CI",
    (AOcts (Some (Rng (Num (2)) (Num (2)) false))));
  ("CN-DomainIndicator",
    (AEnum false ["cs-domain"; "ps-domain"] []));
  ("ESN",
    (ABits (Some (Rng (Num (32)) (Num (32)) false))));
  ("GeographicalLocation",
    (ASeq true [("geographicalCoordinates", (false, (ARef "GeographicalCoordinates")));
      ("altitudeAndDirection", (false, (ARef "AltitudeAndDirection")));
      ("iE-Extensions", (true, (ARef "IE-Extensions")))] []));
  ("GeographicalCoordinates",
    (ASeq true [("latitudeSign", (false, (AEnum false ["north"; "south"] [])));
      ("latitude", (false, (AInt (Some (Rng (Num (0)) (Num (8388607)) false)))));
      ("longitude", (false, (AInt (Some (Rng (Num (-8388608)) (Num (8388607)) false)))));
      ("iE-Extensions", (true, (ARef "IE-Extensions")))] []));
  ("GTP-TEI",
    (AOcts (Some (Rng (Num (4)) (Num (4)) false))));
  ("HNBCapacity",
    (AInt (Some (Rng (Num (0)) (Num (1000)) false))));
  ("HNB-Cell-Access-Mode",
    (AEnum true ["closed"; "hybrid"; "open"] []));
  ("HNB-Cell-Identifier",
    (ASeq true [("pLMNidentity", (false, (ARef "PLMNidentity")));
      ("cellIdentity", (false, (ARef "CellIdentity")));
      ("iE-Extensions", (true, (ARef "IE-Extensions")))] []));
  ("HNB-GWResponse",
    (AChoice true [("hNB", (ARef "HNBConfigInfo"));
      ("macroRNC", (ARef "RNC-ID"));
      ("unknownU-RNTIIndication", (ARef "UnknownU-RNTIIndication"))] []));
  ("HNB-RNL-Identity",
    (AChoice true [("hNB-Identity-as-Cell-Identifier", (ARef "HNB-Cell-Identifier"))] []));
  ("HNBConfigInfo",
    (ASeq true [("hnb-RNL-Identity", (false, (ARef "HNB-RNL-Identity")));
      ("configurationInformation", (false, (ARef "ConfigurationInformation")));
      ("iE-Extensions", (true, (ARef "IE-Extensions")))] []));
  ("ConfigurationInformation",
    (AChoice true [("provided", (ARef "HNBConfigurationInformationProvided"));
      ("missing", (ARef "HNBConfigurationInformationMissing"))] []));
  ("HNBConfigurationInformationProvided",
    (ASeq true [("psc", (true, (ARef "PSC")));
      ("cSG-ID", (true, (ARef "CSG-ID")));
      ("hNB-Cell-Access-Mode", (false, (ARef "HNB-Cell-Access-Mode")));
      ("iurh-Signalling-TNL-AddressList", (false, (ARef "Iurh-Signalling-TNL-AddressList")));
      ("iE-Extensions", (true, (ARef "IE-Extensions")))] []));
  ("HNBConfigurationInformationMissing",
    (ASeq true [("cause", (false, (ARef "Cause")));
      ("iE-Extensions", (true, (ARef "IE-Extensions")))] []));
  ("HNB-Location-Information",
    (ASeq true [("macroCoverageInfo", (true, (ARef "MacroCoverageInformation")));
      ("geographicalCoordinates", (true, (ARef "GeographicalLocation")));
      ("iE-Extensions", (true, (ARef "IE-Extensions")))] []));
  ("HNB-Identity",
    (ASeq true [("hNB-Identity-Info", (false, (ARef "HNB-Identity-Info")));
      ("iE-Extensions", (true, (ARef "IE-Extensions")))] []));
  ("HNB-Identity-Info",
    (AOcts (Some (Rng (Num (1)) (Num (255)) false))));
  ("IMEI",
    (ABits (Some (Rng (Num (60)) (Num (60)) false))));
  ("IMSI",
    (AOcts (Some (Rng (Num (3)) (Num (8)) false))));
  ("IMSIDS41",
    (AOcts (Some (Rng (Num (5)) (Num (7)) false))));
  ("IMSIESN",
    (ASeq false [("iMSIDS41", (false, (ARef "IMSIDS41")));
      ("eSN", (false, (ARef "ESN")))] []));
  ("IP-Address",
    (ASeq true [("ipaddress", (false, (AChoice true [("ipv4info", (ARef "Ipv4Address"));
          ("ipv6info", (ARef "Ipv6Address"))] [])));
      ("iE-Extensions", (true, (ARef "IE-Extensions")))] []));
  ("Ipv4Address",
    (AOcts (Some (Rng (Num (4)) (Num (4)) false))));
  ("Ipv6Address",
    (AOcts (Some (Rng (Num (16)) (Num (16)) false))));
  ("Iurh-Signalling-TNL-AddressList",
    (ASeqOf (Some (Rng (Num (1)) (Cst "maxnoofIurhAddresses") false)) (ARef "IP-Address")));
  ("LAC",
    (AOcts (Some (Rng (Num (2)) (Num (2)) false))));
  ("LAI",
    (ASeq true [("pLMNID", (false, (ARef "PLMNidentity")));
      ("lAC", (false, (ARef "LAC")))] []));
  ("MacroCoverageInformation",
    (ASeq true [("cellIdentity", (false, (ARef "MacroCellID")));
      ("iE-Extensions", (true, (ARef "IE-Extensions")))] []));
  ("MacroCellID",
    (AChoice true [("uTRANCellID", (ARef "UTRANCellID"));
      ("gERANCellID", (ARef "CGI"))] []));
  ("MuxPortNumber",
    (AInt (Some (Rng (Num (1024)) (Num (65535)) false))));
  ("NeighbourCellIdentityList",
    (ASeqOf (Some (Rng (Num (0)) (Cst "maxnoofAdditionalNeighbours") false)) (ARef "NeighbourIdentity")));
  ("NeighbourIdentity",
    (AChoice true [("hNB-RNL-Identity", (ARef "HNB-RNL-Identity"));
      ("cell-ID", (ARef "CellIdentity"))] []));
  ("NeighbourInfoList",
    (ASeqOf (Some (Rng (Num (1)) (Cst "maxnoofNeighbours") false)) (ARef "HNBConfigInfo")));
  ("AdditionalNeighbourInfoList",
    (ASeqOf (Some (Rng (Num (1)) (Cst "maxnoofAdditionalNeighbours") false)) (ARef "HNBConfigInfo")));
  ("NeighbourInfoRequestList",
    (ASeqOf (Some (Rng (Num (1)) (Cst "maxnoofNeighbours") false)) (ARef "NeighbourInfoRequestItem")));
  ("NeighbourInfoRequestItem",
    (ASeq true [("hnb-RNL-Identity", (false, (ARef "HNB-RNL-Identity")));
      ("iE-Extensions", (true, (ARef "IE-Extensions")))] []));
  ("PLMNidentity",
    (AOcts (Some (Rng (Num (3)) (Num (3)) false))));
  ("PSC",
    (ABits (Some (Rng (Num (9)) (Num (9)) false))));
  ("PTMSI",
    (ABits (Some (Rng (Num (32)) (Num (32)) false))));
  ("PTMSIRAI",
    (ASeq true [("pTMSI", (false, (ARef "PTMSI")));
      ("rAI", (false, (ARef "RAI")))] []));
  ("RAB-ID",
    (ABits (Some (Rng (Num (8)) (Num (8)) false))));
  ("RABList",
    (ASeqOf (Some (Rng (Num (1)) (Cst "maxnoofRABs") false)) (ARef "RABListItem")));
  ("RABListItem",
    (ASeq true [("rAB-ID", (false, (ARef "RAB-ID")));
      ("old-transport-Info", (false, (ARef "TransportInfo")));
      ("new-transport-Info", (false, (ARef "TransportInfo")));
      ("cn-domain-indicator", (false, (ARef "CN-DomainIndicator")));
      ("iE-Extensions", (true, (ARef "IE-Extensions")))] []));
  ("RAC",
    (AOcts (Some (Rng (Num (1)) (Num (1)) false))));
  ("RAI",
    (ASeq true [("lAI", (false, (ARef "LAI")));
      ("rAC", (false, (ARef "RAC")))] []));
  ("Registration-Cause",
    (AEnum true ["emergency-call"; "normal"] ["ue-relocation"]));
  ("RNC-ID",
    (AInt (Some (Rng (Num (0)) (Num (65535)) false))));
  ("SAC",
    (AOcts (Some (Rng (Num (2)) (Num (2)) false))));
  ("S-RNTIPrefix",
    (ABits (Some (Rng (Num (1)) (Num (16)) true))));
  ("TMSILAI",
    (ASeq false [("tMSI", (false, (ABits (Some (Rng (Num (32)) (Num (32)) false)))));
      ("lAI", (false, (ARef "LAI")))] []));
  ("TMSIDS41",
    (AOcts (Some (Rng (Num (2)) (Num (17)) false))));
  ("TransportInfo",
    (ASeq true [("transportLayerAddress", (false, (ARef "TransportLayerAddress")));
      ("transportAssociation", (false, (AChoice true [("gtp-TEI", (ARef "GTP-TEI"));
          ("bindingID", (ARef "BindingID"))] [])));
      ("iE-Extensions", (true, (ARef "IE-Extensions")))] []));
  ("TransportLayerAddress",
    (ABits (Some (Rng (Num (1)) (Num (160)) true))));
  ("Tunnel-Information",
    (ASeq true [("iP-Address", (false, (ARef "IP-Address")));
      ("uDP-Port-Number", (true, (ARef "UDP-Port-Number")));
      ("iE-Extensions", (true, (ARef "IE-Extensions")))] []));
  ("TypeOfError",
    (AEnum true ["not-understood"; "missing"] []));
  ("UDP-Port-Number",
    (AOcts (Some (Rng (Num (2)) (Num (2)) false))));
  ("UE-Capabilities",
    (ASeq true [("access-stratum-release-indicator", (false, (ARef "Access-stratum-release-indicator")));
      ("csg-capability", (false, (ARef "CSG-Capability")));
      ("iE-Extensions", (true, (ARef "IE-Extensions")))] []));
  ("UTRANCellID",
    (ASeq false [("lAC", (false, (ARef "LAC")));
      ("rAC", (false, (ARef "RAC")));
      ("pLMNidentity", (false, (ARef "PLMNidentity")));
      ("uTRANcellID", (false, (ARef "CellIdentity")));
      ("iE-Extensions", (true, (ARef "IE-Extensions")))] []));
  ("UE-Identity",
    (AChoice true [("iMSI", (ARef "IMSI"));
      ("tMSILAI", (ARef "TMSILAI"));
      ("pTMSIRAI", (ARef "PTMSIRAI"));
      ("iMEI", (ARef "IMEI"));
      ("eSN", (ARef "ESN"));
      ("iMSIDS41", (ARef "IMSIDS41"));
      ("iMSIESN", (ARef "IMSIESN"));
      ("tMSIDS41", (ARef "TMSIDS41"))] []));
  ("Update-cause",
    (AEnum true ["relocation-preparation"] []));
  ("URAIdentityList",
    (ASeqOf (Some (Rng (Num (0)) (Cst "maxnoofURAIdentities") false)) (ARef "URAIdentity")));
  ("URAIdentity",
    (AInt (Some (Rng (Num (0)) (Num (65535)) false))));
  ("U-RNTI",
    (ABits (Some (Rng (Num (32)) (Num (32)) false))));
  ("UnknownU-RNTIIndication",
    (AEnum true ["unknown"] [])) ].
(* the type assignments of asn1/hnbap/HNBAP-PDU.asn *)
Definition hnbap_compiled : list (string * asn) := [
  ("HNBAP-PDU",
    (AChoice true [("initiatingMessage", (ARef "InitiatingMessage"));
      ("successfulOutcome", (ARef "SuccessfulOutcome"));
      ("unsuccessfulOutcome", (ARef "UnsuccessfulOutcome"))] []));
  ("InitiatingMessage",
    (ASeq false [("procedureCode", (false, (ARef "ProcedureCode")));
      ("criticality", (false, (ARef "Criticality")));
      ("value", (false, AAny))] []));
  ("SuccessfulOutcome",
    (ASeq false [("procedureCode", (false, (ARef "ProcedureCode")));
      ("criticality", (false, (ARef "Criticality")));
      ("value", (false, AAny))] []));
  ("UnsuccessfulOutcome",
    (ASeq false [("procedureCode", (false, (ARef "ProcedureCode")));
      ("criticality", (false, (ARef "Criticality")));
      ("value", (false, AAny))] []));
  ("HNBRegisterRequest",
    (ASeq true [("hnbRegisterRequest-ies", (false, (ASeqOf (Some (Rng (Num (0)) (Cst "maxProtocolIEs") false)) (ARef "IE"))))] []));
  ("HNBRegisterAccept",
    (ASeq true [("hnbRegisterAccept-ies", (false, (ASeqOf (Some (Rng (Num (0)) (Cst "maxProtocolIEs") false)) (ARef "IE"))))] []));
  ("HNBRegisterReject",
    (ASeq true [("hnbRegisterReject-ies", (false, (ASeqOf (Some (Rng (Num (0)) (Cst "maxProtocolIEs") false)) (ARef "IE"))))] []));
  ("UERegisterRequest",
    (ASeq true [("ueRegisterRequest-ies", (false, (ASeqOf (Some (Rng (Num (0)) (Cst "maxProtocolIEs") false)) (ARef "IE"))))] []));
  ("UERegisterAccept",
    (ASeq true [("ueRegisterAccept-ies", (false, (ASeqOf (Some (Rng (Num (0)) (Cst "maxProtocolIEs") false)) (ARef "IE"))))] []));
  ("UERegisterReject",
    (ASeq true [("ueRegisterReject-ies", (false, (ASeqOf (Some (Rng (Num (0)) (Cst "maxProtocolIEs") false)) (ARef "IE"))))] []));
  ("UEDe-Register",
    (ASeq true [("ueDe-Register-ies", (false, (ASeqOf (Some (Rng (Num (0)) (Cst "maxProtocolIEs") false)) (ARef "IE"))))] []));
  ("HNBDe-Register",
    (ASeq true [("hnbDe-Register-ies", (false, (ASeqOf (Some (Rng (Num (0)) (Cst "maxProtocolIEs") false)) (ARef "IE"))))] []));
  ("ErrorIndication",
    (ASeq true [("errorIndication-ies", (false, (ASeqOf (Some (Rng (Num (0)) (Cst "maxProtocolIEs") false)) (ARef "IE"))))] []));
  ("CSGMembershipUpdate",
    (ASeq true [("csgMembershipUpdate-ies", (false, (ASeqOf (Some (Rng (Num (0)) (Cst "maxProtocolIEs") false)) (ARef "IE"))))] []));
  ("TNLUpdateRequest",
    (ASeq true [("tnlUpdateRequest-ies", (false, (ASeqOf (Some (Rng (Num (0)) (Cst "maxProtocolIEs") false)) (ARef "IE"))))] []));
  ("TNLUpdateResponse",
    (ASeq true [("tnlUpdateResponse-ies", (false, (ASeqOf (Some (Rng (Num (0)) (Cst "maxProtocolIEs") false)) (ARef "IE"))))] []));
  ("TNLUpdateFailure",
    (ASeq true [("tnlUpdateFailure-ies", (false, (ASeqOf (Some (Rng (Num (0)) (Cst "maxProtocolIEs") false)) (ARef "IE"))))] []));
  ("HNBConfigTransferRequest",
    (ASeq true [("hnbConfigTransferRequest-ies", (false, (ASeqOf (Some (Rng (Num (0)) (Cst "maxProtocolIEs") false)) (ARef "IE"))))] []));
  ("HNBConfigTransferResponse",
    (ASeq true [("hnbConfigTransferResponse-ies", (false, (ASeqOf (Some (Rng (Num (0)) (Cst "maxProtocolIEs") false)) (ARef "IE"))))] []));
  ("RelocationComplete",
    (ASeq true [("relocationComplete-ies", (false, (ASeqOf (Some (Rng (Num (0)) (Cst "maxProtocolIEs") false)) (ARef "IE"))))] []));
  ("U-RNTIQueryRequest",
    (ASeq true [("u-RNTIQueryRequest-ies", (false, (ASeqOf (Some (Rng (Num (0)) (Cst "maxProtocolIEs") false)) (ARef "IE"))))] []));
  ("U-RNTIQueryResponse",
    (ASeq true [("u-RNTIQueryResponse-ies", (false, (ASeqOf (Some (Rng (Num (0)) (Cst "maxProtocolIEs") false)) (ARef "IE"))))] []));
  ("PrivateMessage",
    (ASeq true [("privateMessage-ies", (false, (ASeqOf (Some (Rng (Num (0)) (Cst "maxProtocolIEs") false)) (ARef "IE"))))] []));
  ("IE",
    (ASeq false [("id", (false, (ARef "ProtocolIE-ID")));
      ("criticality", (false, (ARef "Criticality")));
      ("value", (false, AAny))] [])) ].
(* asn1/hnbap/HNBAP-CommonDataTypes.asn, HNBAP-Constants.asn, HNBAP-IEs.asn, HNBAP-PDU.asn *)
Definition hnbap_asn_types : list (string * asn) := hnbap_common ++ hnbap_compiled.

(* both together *)
Definition hnbap_asn : grammar := Gram hnbap_asn_types hnbap_consts.
