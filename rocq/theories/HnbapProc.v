(* asn1/hnbap/HNBAP-PDU-Descriptions.asn: for every elementary procedure, its
   direction (1 initiating message, 2 successful outcome, 3 unsuccessful outcome),
   code, criticality and the object set of that message (HNBAP-PDU-Contents.asn); PrivateMessage has none.
   Read from the ASN.1 text. *)
From Verif Require Import Base.
From Coq Require Import String.
Local Open Scope string_scope.
(* HNBAP-PDU-Descriptions.asn:1-229 *)
Definition hnbap_procedures : list (N * N * Z * string) :=
  [ (1%N, 1%N, 0%Z, "HNBRegisterRequestIEs");
    (2%N, 1%N, 0%Z, "HNBRegisterAcceptIEs");
    (3%N, 1%N, 0%Z, "HNBRegisterRejectIEs");
    (1%N, 3%N, 0%Z, "UERegisterRequestIEs");
    (2%N, 3%N, 0%Z, "UERegisterAcceptIEs");
    (3%N, 3%N, 0%Z, "UERegisterRejectIEs");
    (1%N, 4%N, 1%Z, "UEDe-RegisterIEs");
    (1%N, 2%N, 1%Z, "HNBDe-RegisterIEs");
    (1%N, 5%N, 1%Z, "ErrorIndicationIEs");
    (1%N, 7%N, 1%Z, "CSGMembershipUpdateIEs");
    (1%N, 9%N, 0%Z, "TNLUpdateRequestIEs");
    (2%N, 9%N, 0%Z, "TNLUpdateResponseIEs");
    (3%N, 9%N, 0%Z, "TNLUpdateFailureIEs");
    (1%N, 10%N, 0%Z, "HNBConfigTransferRequestIEs");
    (2%N, 10%N, 0%Z, "HNBConfigTransferResponseIEs");
    (1%N, 11%N, 1%Z, "RelocationCompleteIEs");
    (1%N, 14%N, 0%Z, "U-RNTIQueryRequestIEs");
    (2%N, 14%N, 0%Z, "U-RNTIQueryResponseIEs") ].
