(* Generated by a script: the IEs that the object sets of
   asn1/rua/RUA-PDU-Contents.asn declare, read without regard to line
   structure, with the numbers of asn1/rua/RUA-Constants.asn: name, number,
   criticality, type, presence. *)
From Verif Require Import Base Aper Container.
From Coq Require Import String.
Local Open Scope string_scope.

(* asn1/rua/RUA-PDU-Contents.asn:1-196 *)
Definition rua_spec : list (string * list (string * N * Z * string * presence)) :=
  [ ("ConnectIEs",
      [ ("id-CN-DomainIndicator", 7%N, 0%Z, "CN-DomainIndicator", Mandatory);
        ("id-Context-ID", 3%N, 0%Z, "Context-ID", Mandatory);
        ("id-IntraDomainNasNodeSelector", 5%N, 1%Z, "IntraDomainNasNodeSelector", Optional);
        ("id-Establishment-Cause", 6%N, 0%Z, "Establishment-Cause", Mandatory);
        ("id-RANAP-Message", 4%N, 0%Z, "RANAP-Message", Mandatory) ]);
    ("DirectTransferIEs",
      [ ("id-CN-DomainIndicator", 7%N, 0%Z, "CN-DomainIndicator", Mandatory);
        ("id-Context-ID", 3%N, 0%Z, "Context-ID", Mandatory);
        ("id-RANAP-Message", 4%N, 0%Z, "RANAP-Message", Mandatory) ]);
    ("DisconnectIEs",
      [ ("id-CN-DomainIndicator", 7%N, 0%Z, "CN-DomainIndicator", Mandatory);
        ("id-Context-ID", 3%N, 0%Z, "Context-ID", Mandatory);
        ("id-Cause", 1%N, 0%Z, "Cause", Mandatory);
        ("id-RANAP-Message", 4%N, 0%Z, "RANAP-Message", Conditional) ]);
    ("ConnectionlessTransferIEs",
      [ ("id-RANAP-Message", 4%N, 0%Z, "RANAP-Message", Mandatory) ]);
    ("ErrorIndicationIEs",
      [ ("id-Cause", 1%N, 1%Z, "Cause", Mandatory);
        ("id-CriticalityDiagnostics", 2%N, 1%Z, "CriticalityDiagnostics", Optional) ]) ].
