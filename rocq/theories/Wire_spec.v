(* The octets of a message, spelled out (3GPP TS 25.413/25.468/25.469/25.419
   header, ITU-T X.691): no reference to the codec. *)
From Verif Require Import Base.
Local Open Scope N_scope.

(* length of an open type below 16384 octets *)
Definition wire_len (n : N) : list N := if n <? 128 then [n] else [128 + n / 256; n mod 256].
(* identifier, criticality (reject 0, ignore 1, notify 2), octets of the value *)
Definition raw_ie := (N * N * list N)%type.
Definition wire_ie (x : raw_ie) : list N :=
  let '(id, crit, o) := x in
  [id / 256; id mod 256; 64 * crit] ++ wire_len (N.of_nat (length o)) ++ o.
(* a message body: no extension, number of IEs, the IEs *)
Definition wire_body (l : list raw_ie) : list N :=
  let n := N.of_nat (length l) in [0; n / 256; n mod 256] ++ flat_map wire_ie l.
(* a PDU: initiating message 1, successful outcome 2, unsuccessful outcome 3,
   outcome 4; procedure code; criticality; body *)
Definition wire_pdu (d proc crit : N) (body : list N) : list N :=
  [32 * (d - 1); proc; 64 * crit] ++ wire_len (N.of_nat (length body)) ++ body.

(* what fits such an IE *)
Definition raw_ok (x : raw_ie) : Prop :=
  let '(id, crit, o) := x in id <= 65535 /\ crit <= 2 /\ N.of_nat (length o) < 16384 /\ bytes_ok o = true.
