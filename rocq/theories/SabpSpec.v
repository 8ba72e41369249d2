(* Generated by a script: the IEs that the object sets of
   asn1/sabp/SABP-PDU-Contents.asn declare, read without regard to line
   structure, with the numbers of asn1/sabp/SABP-Constants.asn: name, number,
   criticality, type, presence. *)
From Verif Require Import Base Aper Container.
From Coq Require Import String.
Local Open Scope string_scope.

(* asn1/sabp/SABP-PDU-Contents.asn:1-448 *)
Definition sabp_spec : list (string * list (string * N * Z * string * presence)) :=
  [ ("Write-Replace-IEs",
      [ ("id-Message-Identifier", 6%N, 0%Z, "Message-Identifier", Mandatory);
        ("id-New-Serial-Number", 7%N, 0%Z, "New-Serial-Number", Mandatory);
        ("id-Old-Serial-Number", 10%N, 1%Z, "Old-Serial-Number", Optional);
        ("id-Service-Areas-List", 15%N, 0%Z, "Service-Areas-List", Mandatory);
        ("id-Category", 1%N, 1%Z, "Category", Optional);
        ("id-Repetition-Period", 13%N, 0%Z, "Repetition-Period", Mandatory);
        ("id-Number-of-Broadcasts-Requested", 9%N, 0%Z, "Number-of-Broadcasts-Requested", Mandatory);
        ("id-Data-Coding-Scheme", 4%N, 0%Z, "Data-Coding-Scheme", Mandatory);
        ("id-Broadcast-Message-Content", 0%N, 0%Z, "Broadcast-Message-Content", Mandatory) ]);
    ("Write-Replace-Complete-IEs",
      [ ("id-Message-Identifier", 6%N, 0%Z, "Message-Identifier", Mandatory);
        ("id-New-Serial-Number", 7%N, 0%Z, "New-Serial-Number", Mandatory);
        ("id-Number-of-Broadcasts-Completed-List", 8%N, 0%Z, "Number-of-Broadcasts-Completed-List", Mandatory);
        ("id-Criticality-Diagnostics", 3%N, 1%Z, "Criticality-Diagnostics", Optional) ]);
    ("Write-Replace-Failure-IEs",
      [ ("id-Message-Identifier", 6%N, 0%Z, "Message-Identifier", Mandatory);
        ("id-New-Serial-Number", 7%N, 0%Z, "New-Serial-Number", Mandatory);
        ("id-Failure-List", 5%N, 0%Z, "Failure-List", Mandatory);
        ("id-Number-of-Broadcasts-Completed-List", 8%N, 1%Z, "Number-of-Broadcasts-Completed-List", Optional);
        ("id-Criticality-Diagnostics", 3%N, 1%Z, "Criticality-Diagnostics", Optional) ]);
    ("Kill-IEs",
      [ ("id-Message-Identifier", 6%N, 0%Z, "Message-Identifier", Mandatory);
        ("id-Old-Serial-Number", 10%N, 0%Z, "Old-Serial-Number", Mandatory);
        ("id-Service-Areas-List", 15%N, 0%Z, "Service-Areas-List", Mandatory) ]);
    ("Kill-Complete-IEs",
      [ ("id-Message-Identifier", 6%N, 0%Z, "Message-Identifier", Mandatory);
        ("id-Old-Serial-Number", 10%N, 0%Z, "Old-Serial-Number", Mandatory);
        ("id-Number-of-Broadcasts-Completed-List", 8%N, 0%Z, "Number-of-Broadcasts-Completed-List", Mandatory);
        ("id-Criticality-Diagnostics", 3%N, 1%Z, "Criticality-Diagnostics", Optional) ]);
    ("Kill-Failure-IEs",
      [ ("id-Message-Identifier", 6%N, 0%Z, "Message-Identifier", Mandatory);
        ("id-Old-Serial-Number", 10%N, 0%Z, "Old-Serial-Number", Mandatory);
        ("id-Failure-List", 5%N, 0%Z, "Failure-List", Mandatory);
        ("id-Number-of-Broadcasts-Completed-List", 8%N, 1%Z, "Number-of-Broadcasts-Completed-List", Optional);
        ("id-Criticality-Diagnostics", 3%N, 1%Z, "Criticality-Diagnostics", Optional) ]);
    ("Load-Query-IEs",
      [ ("id-Service-Areas-List", 15%N, 0%Z, "Service-Areas-List", Mandatory) ]);
    ("Load-Query-Complete-IEs",
      [ ("id-Radio-Resource-Loading-List", 11%N, 0%Z, "Radio-Resource-Loading-List", Mandatory);
        ("id-Criticality-Diagnostics", 3%N, 1%Z, "Criticality-Diagnostics", Optional) ]);
    ("Load-Query-Failure-IEs",
      [ ("id-Failure-List", 5%N, 0%Z, "Failure-List", Mandatory);
        ("id-Radio-Resource-Loading-List", 11%N, 1%Z, "Radio-Resource-Loading-List", Optional);
        ("id-Criticality-Diagnostics", 3%N, 1%Z, "Criticality-Diagnostics", Optional) ]);
    ("Message-Status-Query-IEs",
      [ ("id-Message-Identifier", 6%N, 0%Z, "Message-Identifier", Mandatory);
        ("id-Old-Serial-Number", 10%N, 0%Z, "Old-Serial-Number", Mandatory);
        ("id-Service-Areas-List", 15%N, 0%Z, "Service-Areas-List", Mandatory) ]);
    ("Message-Status-Query-Complete-IEs",
      [ ("id-Message-Identifier", 6%N, 0%Z, "Message-Identifier", Mandatory);
        ("id-Old-Serial-Number", 10%N, 0%Z, "Old-Serial-Number", Mandatory);
        ("id-Number-of-Broadcasts-Completed-List", 8%N, 0%Z, "Number-of-Broadcasts-Completed-List", Mandatory);
        ("id-Criticality-Diagnostics", 3%N, 1%Z, "Criticality-Diagnostics", Optional) ]);
    ("Message-Status-Query-Failure-IEs",
      [ ("id-Message-Identifier", 6%N, 0%Z, "Message-Identifier", Mandatory);
        ("id-Failure-List", 5%N, 0%Z, "Failure-List", Mandatory);
        ("id-Old-Serial-Number", 10%N, 0%Z, "Old-Serial-Number", Mandatory);
        ("id-Number-of-Broadcasts-Completed-List", 8%N, 1%Z, "Number-of-Broadcasts-Completed-List", Optional);
        ("id-Criticality-Diagnostics", 3%N, 1%Z, "Criticality-Diagnostics", Optional) ]);
    ("Reset-IEs",
      [ ("id-Service-Areas-List", 15%N, 0%Z, "Service-Areas-List", Mandatory) ]);
    ("Reset-Complete-IEs",
      [ ("id-Service-Areas-List", 15%N, 0%Z, "Service-Areas-List", Mandatory);
        ("id-Criticality-Diagnostics", 3%N, 1%Z, "Criticality-Diagnostics", Optional) ]);
    ("Reset-Failure-IEs",
      [ ("id-Failure-List", 5%N, 0%Z, "Failure-List", Mandatory);
        ("id-Service-Areas-List", 15%N, 0%Z, "Service-Areas-List", Optional);
        ("id-Criticality-Diagnostics", 3%N, 1%Z, "Criticality-Diagnostics", Optional) ]);
    ("Restart-IEs",
      [ ("id-Service-Areas-List", 15%N, 1%Z, "Service-Areas-List", Mandatory);
        ("id-Recovery-Indication", 12%N, 1%Z, "Recovery-Indication", Optional) ]);
    ("Failure-IEs",
      [ ("id-Service-Areas-List", 15%N, 1%Z, "Service-Areas-List", Mandatory) ]);
    ("Error-Indication-IEs",
      [ ("id-Message-Identifier", 6%N, 1%Z, "Message-Identifier", Optional);
        ("id-Serial-Number", 14%N, 1%Z, "Serial-Number", Optional);
        ("id-Cause", 2%N, 1%Z, "Cause", Optional);
        ("id-Criticality-Diagnostics", 3%N, 1%Z, "Criticality-Diagnostics", Optional) ]) ].
