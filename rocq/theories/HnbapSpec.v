(* Generated by a script: the IEs that the object sets of
   asn1/hnbap/HNBAP-PDU-Contents.asn declare, read without regard to line
   structure, with the numbers of asn1/hnbap/HNBAP-Constants.asn: name, number,
   criticality, type, presence. *)
From Verif Require Import Base Aper Container.
From Coq Require Import String.
Local Open Scope string_scope.

(* asn1/hnbap/HNBAP-PDU-Contents.asn:1-562 *)
Definition hnbap_spec : list (string * list (string * N * Z * string * presence)) :=
  [ ("HNBRegisterRequestIEs",
      [ ("id-HNB-Identity", 3%N, 0%Z, "HNB-Identity", Mandatory);
        ("id-HNB-Location-Information", 8%N, 0%Z, "HNB-Location-Information", Mandatory);
        ("id-PLMNidentity", 9%N, 0%Z, "PLMNidentity", Mandatory);
        ("id-CellIdentity", 11%N, 0%Z, "CellIdentity", Mandatory);
        ("id-LAC", 6%N, 0%Z, "LAC", Mandatory);
        ("id-RAC", 7%N, 0%Z, "RAC", Mandatory);
        ("id-SAC", 10%N, 0%Z, "SAC", Mandatory);
        ("id-CSG-ID", 15%N, 0%Z, "CSG-ID", Optional) ]);
    ("HNBRegisterAcceptIEs",
      [ ("id-RNC-ID", 14%N, 0%Z, "RNC-ID", Mandatory) ]);
    ("HNBRegisterRejectIEs",
      [ ("id-Cause", 1%N, 1%Z, "Cause", Mandatory);
        ("id-CriticalityDiagnostics", 2%N, 1%Z, "CriticalityDiagnostics", Optional);
        ("id-BackoffTimer", 16%N, 0%Z, "BackoffTimer", Conditional) ]);
    ("HNBDe-RegisterIEs",
      [ ("id-Cause", 1%N, 1%Z, "Cause", Mandatory);
        ("id-BackoffTimer", 16%N, 0%Z, "BackoffTimer", Conditional) ]);
    ("UERegisterRequestIEs",
      [ ("id-UE-Identity", 5%N, 0%Z, "UE-Identity", Mandatory);
        ("id-Registration-Cause", 12%N, 1%Z, "Registration-Cause", Mandatory);
        ("id-UE-Capabilities", 13%N, 0%Z, "UE-Capabilities", Mandatory) ]);
    ("UERegisterAcceptIEs",
      [ ("id-UE-Identity", 5%N, 0%Z, "UE-Identity", Mandatory);
        ("id-Context-ID", 4%N, 0%Z, "Context-ID", Mandatory) ]);
    ("UERegisterRejectIEs",
      [ ("id-UE-Identity", 5%N, 0%Z, "UE-Identity", Mandatory);
        ("id-Cause", 1%N, 1%Z, "Cause", Mandatory);
        ("id-CriticalityDiagnostics", 2%N, 1%Z, "CriticalityDiagnostics", Optional) ]);
    ("UEDe-RegisterIEs",
      [ ("id-Context-ID", 4%N, 0%Z, "Context-ID", Mandatory);
        ("id-Cause", 1%N, 1%Z, "Cause", Mandatory) ]);
    ("CSGMembershipUpdateIEs",
      [ ("id-Context-ID", 4%N, 0%Z, "Context-ID", Mandatory);
        ("id-CSGMembershipStatus", 21%N, 0%Z, "CSGMembershipStatus", Mandatory) ]);
    ("TNLUpdateRequestIEs",
      [ ("id-Context-ID", 4%N, 0%Z, "Context-ID", Mandatory);
        ("id-RABList", 22%N, 0%Z, "RABList", Mandatory);
        ("id-Update-cause", 26%N, 0%Z, "Update-cause", Mandatory) ]);
    ("TNLUpdateResponseIEs",
      [ ("id-Context-ID", 4%N, 0%Z, "Context-ID", Mandatory) ]);
    ("TNLUpdateFailureIEs",
      [ ("id-Context-ID", 4%N, 0%Z, "Context-ID", Mandatory);
        ("id-Cause", 1%N, 1%Z, "Cause", Mandatory);
        ("id-CriticalityDiagnostics", 2%N, 1%Z, "CriticalityDiagnostics", Optional) ]);
    ("HNBConfigTransferRequestIEs",
      [ ("id-NeighbourInfoRequestList", 28%N, 0%Z, "NeighbourInfoRequestList", Mandatory) ]);
    ("HNBConfigTransferResponseIEs",
      [ ("id-NeighbourInfoList", 27%N, 0%Z, "NeighbourInfoList", Mandatory) ]);
    ("RelocationCompleteIEs",
      [ ("id-Context-ID", 4%N, 1%Z, "Context-ID", Mandatory) ]);
    ("ErrorIndicationIEs",
      [ ("id-Cause", 1%N, 1%Z, "Cause", Mandatory);
        ("id-CriticalityDiagnostics", 2%N, 1%Z, "CriticalityDiagnostics", Optional) ]);
    ("U-RNTIQueryRequestIEs",
      [ ("id-U-RNTI", 49%N, 0%Z, "U-RNTI", Mandatory) ]);
    ("U-RNTIQueryResponseIEs",
      [ ("id-HNB-GWResponse", 51%N, 0%Z, "HNB-GWResponse", Mandatory) ]) ].
