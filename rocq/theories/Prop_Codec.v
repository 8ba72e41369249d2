(* Property C62: aligned PER over the type descriptors of the repository *)
From Verif Require Import Base Aper Aper_spec RanapTypes RuaTypes HnbapTypes SabpTypes AllTypes Aper_valid.

(* any value within the constraints, at any bit offset, followed by any bits *)
Theorem C62_aper_round_trip :
  forall name t v p, In (name, t) all_types -> valid t v ->
  exists b, enc t v p = Some b /\ forall rest, dec t p (b ++ rest) = Some (v, p + length b, rest).
Proof. exact all_round_trip. Qed.
Print Assumptions C62_aper_round_trip.

(* whole octets, as in an open type field: trailing octets do not matter *)
Theorem C62_aper_octets_round_trip :
  forall name t v, In (name, t) all_types -> valid t v ->
  exists o, encode t v = Some o /\ bytes_ok o = true /\ o <> [] /\ forall rest, decode t (o ++ rest) = Some v.
Proof. exact all_octets. Qed.
Print Assumptions C62_aper_octets_round_trip.

(* nothing outside the constraints is ever put on the wire *)
Theorem C62_aper_only_valid :
  forall t v o, encode t v = Some o -> valid t v.
Proof. exact encode_valid. Qed.
Print Assumptions C62_aper_only_valid.

Theorem C62_aper_unambiguous :
  forall t v w o, encode t v = Some o -> encode t w = Some o -> v = w.
Proof. exact encode_inj. Qed.
Print Assumptions C62_aper_unambiguous.

(* the descriptors of the four protocols *)
Example C62_types : length all_types = 983 /\ length ranap_types = 708.
Proof. split; vm_compute; reflexivity. Qed.

(* octets of tests/test-ranap.ok (RAB assignment, voice and data) are decoded
   and reproduced exactly *)
Local Open Scope N_scope.
Definition voice_first :=
  [0x78;0x02;0xCD;0x80;0x10;0x2F;0xA7;0x20;0x1A;0x2C;0x00;0x00;0xF4;0x4C;0x08;0x0A;0x02;0x80;0x00;0x51;0x40;
   0x00;0x27;0x20;0x28;0x14;0x00;0x67;0x40;0x00;0x00;0x22;0x28;0x14;0x00;0x3C;0x40;0x00;0x00;0x00;0x50;0x3D;
   0x02;0x00;0x02;0x27;0xC0;0x35;0x00;0x01;0x0A;0x0B;0x0C;0x0D;0;0;0;0;0;0;0;0;0;0;0;0;0;0x40;0x09;0x26;0;0].
Definition data_first :=
  [0x38;0x04;0x12;0xDE;0x18;0x69;0xFF;0x80;0x0C;0x34;0xFF;0x00;0x1F;0x40;0x08;0x06;0x08;0x9E;0;0;0;0;0xB1;
   0x40;0x05;0x60;0x01;0x8C;0xBA;0x7F;0x00;0x00;0x11;0x3E;0x35;0x00;0x01;0x1A;0x1B;0x1C;0x1D;0;0;0;0;0;0;0;0;
   0;0;0;0;0;0;0x11;0x22;0x33;0x44].
Example C62_voice :
  match decode T_RANAP_RAB_SetupOrModifyItemFirst voice_first with
  | Some v => encode T_RANAP_RAB_SetupOrModifyItemFirst v = Some voice_first
  | None => False
  end.
Proof. vm_compute. reflexivity. Qed.
Example C62_data :
  match decode T_RANAP_RAB_SetupOrModifyItemFirst data_first with
  | Some v => encode T_RANAP_RAB_SetupOrModifyItemFirst v = Some data_first
  | None => False
  end.
Proof. vm_compute. reflexivity. Qed.
Example C62_valid_case : exists v,
  valid T_RANAP_RAB_SetupOrModifyItemFirst v /\ decode T_RANAP_RAB_SetupOrModifyItemFirst data_first = Some v.
Proof.
  eexists. split; [|vm_compute; reflexivity]. eapply encode_valid. vm_compute. reflexivity.
Qed.

(* C64: whatever octets arrive *)
Theorem C64_decoded_values_valid_and_reencodable :
  forall name t o v, In (name, t) all_types -> decode t o = Some v ->
  valid t v /\ exists o', encode t v = Some o' /\ forall rest, decode t (o' ++ rest) = Some v.
Proof. exact all_reencode. Qed.
Print Assumptions C64_decoded_values_valid_and_reencodable.
Example C64_ex : (* a non-minimal encoding: extension bit set, no extension present *)
  decode T_RANAP_LAI [0xa0; 0; 0; 1; 2; 3; 4; 5]%N = None /\
  decode T_RANAP_LAI [0; 0x00; 0xf1; 0x10; 0; 1; 9]%N =
    Some (VSeq [Some (VOcts [0x00; 0xf1; 0x10]%N); Some (VOcts [0; 1]%N); None] []) /\
  encode T_RANAP_LAI (VSeq [Some (VOcts [0x00; 0xf1; 0x10]%N); Some (VOcts [0; 1]%N); None] []) =
    Some [0; 0x00; 0xf1; 0x10; 0; 1]%N.
Proof. vm_compute. repeat split. Qed.
