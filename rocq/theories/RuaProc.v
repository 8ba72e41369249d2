(* asn1/rua/RUA-PDU-Descriptions.asn: for every elementary procedure, its
   direction (1 initiating message, 2 successful outcome, 3 unsuccessful outcome),
   code, criticality and the object set of that message (RUA-PDU-Contents.asn); PrivateMessage has none.
   Read from the ASN.1 text. *)
From Verif Require Import Base.
From Coq Require Import String.
Local Open Scope string_scope.
(* RUA-PDU-Descriptions.asn:1-167 *)
Definition rua_procedures : list (N * N * Z * string) :=
  [ (1%N, 1%N, 1%Z, "ConnectIEs");
    (1%N, 2%N, 1%Z, "DirectTransferIEs");
    (1%N, 3%N, 1%Z, "DisconnectIEs");
    (1%N, 4%N, 1%Z, "ConnectionlessTransferIEs");
    (1%N, 5%N, 1%Z, "ErrorIndicationIEs") ].
