(* The messages that the project's own test prints, /repo/tests/test-ranap.c:93-173
   and /repo/tests/test-ranap.ok, computed by the model.  These are tests of the
   model, on a few literals, and no proofs of any property. *)
From Verif Require Import Base Factory_spec Factory.

Definition imsi : list N := [57; 48; 49; 55; 48; 48; 49; 50; 51; 52; 53; 54; 55; 56; 57]%N.
Definition grnc : global_rnc := mkGrnc [0x09; 0x01; 0x99]%N 2342.
Definition msg_of (o : outcome made) : option (list N) := match o with Ok m => r_msg m | _ => None end.

Example golden_dt : r_msg (new_msg_dt 0 [0xaa; 0xbb; 0xcc]%N) = Some [
  0x00; 0x14; 0x40; 0x10; 0x00; 0x00; 0x02; 0x00; 0x10; 0x40; 0x04; 0x03; 0xaa; 0xbb; 0xcc; 0x00; 0x3b; 0x40; 0x01; 0x00]%N.
Proof. vm_compute. reflexivity. Qed.
Example golden_sec_mod_cmd : r_msg (new_msg_sec_mod_cmd (repeat 1%N 16) (Some (repeat 2%N 16)) 1) = Some [
  0x00; 0x06; 0x00; 0x34; 0x00; 0x00; 0x03; 0x00; 0x0c; 0x00; 0x12; 0x08; 0x08; 0x01; 0x01; 0x01; 0x01; 0x01; 0x01; 0x01; 0x01; 0x01; 0x01; 0x01;
  0x01; 0x01; 0x01; 0x01; 0x01; 0x00; 0x0b; 0x40; 0x12; 0x08; 0x90; 0x02; 0x02; 0x02; 0x02; 0x02; 0x02; 0x02; 0x02; 0x02; 0x02; 0x02; 0x02; 0x02;
  0x02; 0x02; 0x02; 0x00; 0x4b; 0x00; 0x01; 0x40]%N.
Proof. vm_compute. reflexivity. Qed.
Example golden_common_id : msg_of (new_msg_common_id (Some imsi)) = Some [
  0x00; 0x0f; 0x40; 0x10; 0x00; 0x00; 0x01; 0x00; 0x17; 0x40; 0x09; 0x50; 0x09; 0x71; 0x00; 0x21; 0x43; 0x65; 0x87; 0xf9]%N.
Proof. vm_compute. reflexivity. Qed.
Example golden_iu_rel_cmd : r_msg (new_msg_iu_rel_cmd (mkCause 1 46)) = Some [
  0x00; 0x01; 0x00; 0x09; 0x00; 0x00; 0x01; 0x00; 0x04; 0x40; 0x02; 0x0b; 0x40]%N.
Proof. vm_compute. reflexivity. Qed.
Example golden_paging_cmd : msg_of (new_msg_paging_cmd imsi (Some 0x01234567%N) false 0) = Some [
  0x00; 0x0e; 0x40; 0x1e; 0x00; 0x00; 0x03; 0x00; 0x03; 0x40; 0x01; 0x00; 0x00; 0x17; 0x40; 0x09; 0x50; 0x09; 0x71; 0x00; 0x21; 0x43; 0x65; 0x87;
  0xf9; 0x00; 0x40; 0x40; 0x05; 0x00; 0x01; 0x23; 0x45; 0x67]%N.
Proof. vm_compute. reflexivity. Qed.
Example golden_rab_assign_voice : r_msg (new_msg_rab_assign_voice 1 0x0a0b0c0d 2342 true) = Some [
  0x00; 0x00; 0x00; 0x59; 0x00; 0x00; 0x01; 0x00; 0x36; 0x40; 0x52; 0x00; 0x00; 0x01; 0x00; 0x35; 0x00; 0x48; 0x78; 0x02; 0xcd; 0x80; 0x10; 0x2f;
  0xa7; 0x20; 0x1a; 0x2c; 0x00; 0x00; 0xf4; 0x4c; 0x08; 0x0a; 0x02; 0x80; 0x00; 0x51; 0x40; 0x00; 0x27; 0x20; 0x28; 0x14; 0x00; 0x67; 0x40; 0x00;
  0x00; 0x22; 0x28; 0x14; 0x00; 0x3c; 0x40; 0x00; 0x00; 0x00; 0x50; 0x3d; 0x02; 0x00; 0x02; 0x27; 0xc0; 0x35; 0x00; 0x01; 0x0a; 0x0b; 0x0c; 0x0d;
  0x00; 0x00; 0x00; 0x00; 0x00; 0x00; 0x00; 0x00; 0x00; 0x00; 0x00; 0x00; 0x00; 0x40; 0x09; 0x26; 0x00; 0x00; 0x40; 0x01; 0x00]%N.
Proof. vm_compute. reflexivity. Qed.
Example golden_rab_assign_data : r_msg (new_msg_rab_assign_data 2 0x1a1b1c1d 0x11223344 true) = Some [
  0x00; 0x00; 0x00; 0x51; 0x00; 0x00; 0x01; 0x00; 0x36; 0x40; 0x4a; 0x00; 0x00; 0x01; 0x00; 0x35; 0x00; 0x3b; 0x38; 0x04; 0x12; 0xde; 0x18; 0x69;
  0xff; 0x80; 0x0c; 0x34; 0xff; 0x00; 0x1f; 0x40; 0x08; 0x06; 0x08; 0x9e; 0x00; 0x00; 0x00; 0x00; 0xb1; 0x40; 0x05; 0x60; 0x01; 0x8c; 0xba; 0x7f;
  0x00; 0x00; 0x11; 0x3e; 0x35; 0x00; 0x01; 0x1a; 0x1b; 0x1c; 0x1d; 0x00; 0x00; 0x00; 0x00; 0x00; 0x00; 0x00; 0x00; 0x00; 0x00; 0x00; 0x00; 0x00;
  0x00; 0x11; 0x22; 0x33; 0x44; 0x40; 0x06; 0x78; 0x1c; 0x00; 0x00; 0x00; 0x00]%N.
Proof. vm_compute. reflexivity. Qed.
Example golden_reset : r_msg (new_msg_reset 0 (Some (mkCause 1 46))) = Some [
  0x00; 0x09; 0x00; 0x0e; 0x00; 0x00; 0x02; 0x00; 0x04; 0x40; 0x02; 0x0b; 0x40; 0x00; 0x03; 0x00; 0x01; 0x00]%N.
Proof. vm_compute. reflexivity. Qed.
Example golden_reset_ack : r_msg (new_msg_reset_ack 0 (Some grnc)) = Some [
  0x20; 0x09; 0x00; 0x11; 0x00; 0x00; 0x02; 0x00; 0x03; 0x00; 0x01; 0x00; 0x00; 0x56; 0x40; 0x05; 0x09; 0x01; 0x99; 0x09; 0x26]%N.
Proof. vm_compute. reflexivity. Qed.
Example golden_initial_ue : r_msg (new_msg_initial_ue true 23 false grnc [0xaa; 0xbb; 0xcc]%N) = Some [
  0x00; 0x13; 0x40; 0x36; 0x00; 0x00; 0x06; 0x00; 0x03; 0x40; 0x01; 0x00; 0x00; 0x0f; 0x40; 0x06; 0x00; 0x09; 0x01; 0x99; 0x42; 0x23; 0x00; 0x3a;
  0x40; 0x08; 0x00; 0x09; 0x01; 0x99; 0x42; 0x23; 0x42; 0x23; 0x00; 0x10; 0x40; 0x04; 0x03; 0xaa; 0xbb; 0xcc; 0x00; 0x4f; 0x40; 0x03; 0x00; 0x00;
  0x17; 0x00; 0x56; 0x40; 0x05; 0x09; 0x01; 0x99; 0x09; 0x26]%N.
Proof. vm_compute. reflexivity. Qed.
Example golden_iu_rel_req : r_msg (new_msg_iu_rel_req (mkCause 1 46)) = Some [
  0x00; 0x0b; 0x40; 0x09; 0x00; 0x00; 0x01; 0x00; 0x04; 0x40; 0x02; 0x0b; 0x40]%N.
Proof. vm_compute. reflexivity. Qed.
Example golden_rab_rel_req : r_msg (new_msg_rab_rel_req 23 (mkCause 1 46)) = Some [
  0x00; 0x0a; 0x40; 0x11; 0x00; 0x00; 0x01; 0x00; 0x29; 0x40; 0x0a; 0x00; 0x00; 0x01; 0x00; 0x28; 0x40; 0x03; 0x05; 0xc2; 0xd0]%N.
Proof. vm_compute. reflexivity. Qed.
