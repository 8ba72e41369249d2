(* asn1/sabp/SABP-PDU-Descriptions.asn: for every elementary procedure, its
   direction (1 initiating message, 2 successful outcome, 3 unsuccessful outcome),
   code, criticality and the object set of that message (SABP-PDU-Contents.asn).
   Read from the ASN.1 text. *)
From Verif Require Import Base.
From Coq Require Import String.
Local Open Scope string_scope.
(* SABP-PDU-Descriptions.asn:1-169 *)
Definition sabp_procedures : list (N * N * Z * string) :=
  [ (1%N, 0%N, 0%Z, "Write-Replace-IEs");
    (2%N, 0%N, 0%Z, "Write-Replace-Complete-IEs");
    (3%N, 0%N, 0%Z, "Write-Replace-Failure-IEs");
    (1%N, 1%N, 0%Z, "Kill-IEs");
    (2%N, 1%N, 0%Z, "Kill-Complete-IEs");
    (3%N, 1%N, 0%Z, "Kill-Failure-IEs");
    (1%N, 2%N, 0%Z, "Load-Query-IEs");
    (2%N, 2%N, 0%Z, "Load-Query-Complete-IEs");
    (3%N, 2%N, 0%Z, "Load-Query-Failure-IEs");
    (1%N, 3%N, 0%Z, "Message-Status-Query-IEs");
    (2%N, 3%N, 0%Z, "Message-Status-Query-Complete-IEs");
    (3%N, 3%N, 0%Z, "Message-Status-Query-Failure-IEs");
    (1%N, 5%N, 0%Z, "Reset-IEs");
    (2%N, 5%N, 0%Z, "Reset-Complete-IEs");
    (3%N, 5%N, 0%Z, "Reset-Failure-IEs");
    (1%N, 4%N, 1%Z, "Restart-IEs");
    (1%N, 6%N, 1%Z, "Failure-IEs");
    (1%N, 7%N, 1%Z, "Error-Indication-IEs") ].
