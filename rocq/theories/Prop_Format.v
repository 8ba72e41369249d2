(* Property C71: what goes on the wire is what the standard prescribes *)
From Verif Require Import Base Aper Aper_spec X691 AllTypes Aper_valid X691_proofs RanapTypes.

(* at any bit position: the bits of X691.v, those and no others *)
Theorem C71_wire_format :
  forall t v p b, enc t v p = Some b <-> x691 t v p b.
Proof. intros t v p b. symmetry. apply x691_enc. Qed.
Print Assumptions C71_wire_format.

(* whole encodings: octets, the last one filled with zero bits *)
Theorem C71_octets_format :
  forall t v o, encode t v = Some o <-> completed (x691 t v) o.
Proof. exact encode_x691. Qed.
Print Assumptions C71_octets_format.

(* a peer that follows the standard is understood *)
Theorem C71_conformant_peer_understood :
  forall t v o rest, completed (x691 t v) o -> decode t (o ++ rest) = Some v.
Proof. exact x691_decode. Qed.
Print Assumptions C71_conformant_peer_understood.

(* the standard has an encoding, and one only, for exactly the values within the
   constraints of a type of the four protocols *)
Theorem C71_one_encoding :
  forall name t v, In (name, t) all_types ->
  (valid t v <-> exists o, completed (x691 t v) o) /\
  (forall o o', completed (x691 t v) o -> completed (x691 t v) o' -> o = o').
Proof. exact one_encoding. Qed.
Print Assumptions C71_one_encoding.

(* 26-bit and larger numbers, by hand: INTEGER (0..2^32-1) of value 0x1234 is a
   two-bit count of octets less one, six bits of filler and two octets *)
Example C71_ex_integer :
  completed (x691 (TInt (Some (mkCon false 0 4294967295))) (VInt 4660)) [0x40; 0x12; 0x34]%N.
Proof. apply encode_x691. vm_compute. reflexivity. Qed.
Example C71_ex_lai :
  completed (x691 T_RANAP_LAI (VSeq [Some (VOcts [0x00; 0xf1; 0x10]%N); Some (VOcts [0; 1]%N); None] []))
    [0; 0x00; 0xf1; 0x10; 0; 1]%N.
Proof. apply encode_x691. vm_compute. reflexivity. Qed.
(* the number is really read off the bits *)
Example C71_ex_number : number [true; false; true; true] = 11%N /\ bits_for 5 3 /\ ~ bits_for 5 4.
Proof.
  split; [reflexivity|]. split.
  - split; [vm_compute; discriminate|]. intros [|[|[|m]]] H; [vm_compute in H; exfalso; apply H; reflexivity..|].
    apply le_n_S, le_n_S, le_n_S, Nat.le_0_l.
  - intros [_ H]. specialize (H 3). assert (4 <= 3) by (apply H; vm_compute; discriminate). lia.
Qed.
