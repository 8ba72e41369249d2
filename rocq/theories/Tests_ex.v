(* What the project's own tests expect, /repo/tests/test-helpers.c with
   test-helpers.ok, test-ranap.c:40-78 with test-ranap.ok and test-hnbap.c with
   test-hnbap.ok, computed by the model.  Like Factory_golden these are tests of the
   model, on a few literals, and no proofs of any property. *)
From Verif Require Import Base Helpers Lai Aper Container RanapTypes HnbapTypes HnbapTab Factory_spec.
From Coq Require Import String Ascii List.
Import ListNotations.
Local Open Scope list_scope.

Fixpoint chars (s : string) : list N := match s with EmptyString => [] | String c s => N_of_ascii c :: chars s end.

(* ---------------- test-helpers.c ---------------- *)
(* :42-62 test_iu_helpers *)
Example t_decode : bcd_decode 32 [0x10; 0x32; 0x54; 0x76; 0xf8]%N = Ok (chars "012345678" ++ [0]%N, 10).
Proof. vm_compute. reflexivity. Qed.
Example t_encode : imsi_encode 16 16 (chars "012345678") = Ok [0x10; 0x32; 0x54; 0x76; 0xf8]%N.
Proof. vm_compute. reflexivity. Qed.
(* :76-122 test_asn1_helpers: asn_DEF_BIT_STRING has no limits *)
Definition bits_of (n : nat) (v : N) : list bool := map (fun i => N.testbit v (N.of_nat (n - 1 - i))) (List.seq 0 n).
Example t_bits : encode (TBits None) (VBits (bits_of 32 0xdeadbeef)) = Some [0x20; 0xde; 0xad; 0xbe; 0xef]%N /\
  encode (TBits None) (VBits (bits_of 24 0xdeadbeef)) = Some [0x18; 0xad; 0xbe; 0xef]%N /\
  asn1bitstr_to_u32 [0xde; 0xad; 0xbe; 0xef]%N = Ok 0xdeadbeef%N.
Proof. vm_compute. repeat split. Qed.
(* :124-203 test_ranap_common *)
Example t_lai :
  parse_lai (mkRLai [0x21; 0xf3; 0x54]%N [0xab; 0xcd]%N) = Ok (0%Z, mkRaId 123 45 false 0xabcd 0) /\
  parse_lai (mkRLai [0x21; 0x43; 0x65]%N [0xab; 0xcd]%N) = Ok (0%Z, mkRaId 123 456 false 0xabcd 0) /\
  (exists r, parse_lai (mkRLai [0x21; 0x43]%N [0xab; 0xcd]%N) = Ok ((-1)%Z, r)) /\
  (exists r, parse_lai (mkRLai [0x21; 0x43; 0x65]%N [0xab]%N) = Ok ((-1)%Z, r)).
Proof. vm_compute. repeat split; eexists; reflexivity. Qed.
(* :205-322 test_ranap_new_transp_info_rtp, test_ranap_new_transp_info_gtp; AF_X25 is 9 *)
Definition v4 : list N := [1; 2; 3; 4]%N.
Definition v6 : list N := [0xf1; 0x1f; 0xf2; 0x2f; 0xf3; 0x3f; 0xf4; 0x4f; 0xf5; 0x5f; 0xf6; 0x6f; 0xf7; 0x7f; 0xf8; 0x8f]%N.
Definition at_family (f : N) : sockaddr := mkSockaddr f 0x1122 v4 v6.
Definition nsap4 : list N := [0x35; 0; 1; 1; 2; 3; 4; 0; 0; 0; 0; 0; 0; 0; 0; 0; 0; 0; 0; 0]%N.
Definition nsap6 : list N := [0x35; 0; 0; 0xf1; 0x1f; 0xf2; 0x2f; 0xf3; 0x3f; 0xf4; 0x4f; 0xf5; 0x5f; 0xf6; 0x6f; 0xf7; 0x7f; 0xf8; 0x8f; 0]%N.
Example t_rtp :
  let id := mkAssoc PR_bindingID [0x11; 0x22; 0; 0]%N in
  new_transp_info_rtp (at_family AF_INET) true = Some (mkTli nsap4 id) /\ new_transp_info_rtp (at_family AF_INET) false = Some (mkTli v4 id) /\
  new_transp_info_rtp (at_family AF_INET6) true = Some (mkTli nsap6 id) /\ new_transp_info_rtp (at_family AF_INET6) false = Some (mkTli v6 id) /\
  new_transp_info_rtp (at_family 9) false = None.
Proof. vm_compute. repeat split. Qed.
Example t_gtp :
  let tei := mkAssoc PR_gTP_TEI [0x11; 0x22; 0x33; 0x44]%N in
  new_transp_info_gtp (at_family AF_INET) 0x11223344 true = Some (mkTli nsap4 tei) /\ new_transp_info_gtp (at_family AF_INET) 0x11223344 false = Some (mkTli v4 tei) /\
  new_transp_info_gtp (at_family AF_INET6) 0x11223344 true = Some (mkTli nsap6 tei) /\ new_transp_info_gtp (at_family AF_INET6) 0x11223344 false = Some (mkTli v6 tei) /\
  new_transp_info_gtp (at_family 9) 0x11223344 false = None.
Proof. vm_compute. repeat split. Qed.
(* :324-349 test_ranap_transp_layer_addr_decode *)
Example t_addr : transp_layer_addr_decode 100 nsap4 = Ok (0%Z, Some (chars "1.2.3.4")) /\ transp_layer_addr_decode 100 v4 = Ok (0%Z, Some (chars "1.2.3.4")).
Proof. vm_compute. repeat split. Qed.
(* :351-406 test_ranap_transp_layer_addr_decode2 *)
Definition read2 (b : list N) : option (Z * N * list N * option bool) :=
  match transp_layer_addr_decode2 b with Ok (rc, a, x) => Some (rc, sa_family a, sa_addr a, x) | _ => None end.
Example t_addr2 :
  read2 nsap4 = Some (0%Z, 2%N, v4, Some true) /\ read2 v4 = Some (0%Z, 2%N, v4, Some false) /\
  read2 nsap6 = Some (0%Z, 10%N, v6, Some true) /\ read2 v6 = Some (0%Z, 10%N, v6, Some false).
Proof. vm_compute. repeat split. Qed.

(* ---------------- test-ranap.c ---------------- *)
(* :40-54 test_aper_int, :186-196 *)
Example t_maxbitrate : map (fun x => encode T_RANAP_MaxBitrate (VInt x)) [1; 2; 3; 255; 256; 257; 64000; 65535; 65536; 65537; 16000000]%Z = map Some
  [[0; 0]; [0; 1]; [0; 2]; [0; 0xfe]; [0; 0xff]; [0x40; 1; 0]; [0x40; 0xf9; 0xff]; [0x40; 0xff; 0xfe]; [0x40; 0xff; 0xff]; [0x80; 1; 0; 0]; [0x80; 0xf4; 0x23; 0xff]]%N.
Proof. vm_compute. reflexivity. Qed.
(* :56-82 test_aper_causemisc, :197: unspecified-failure(115), the range starts with 113 *)
Example t_causemisc : encode T_RANAP_Cause (VChoice 4 (VInt 115)) = Some [0x42]%N /\ decode T_RANAP_Cause [0x42]%N = Some (VChoice 4 (VInt 115)).
Proof. vm_compute. repeat split. Qed.

(* ---------------- test-hnbap.c ---------------- *)
(* :37-71 *)
Definition hnbap_reg_req : list N := [
  0x00; 0x01;
  0x00; 0x57; 0x00; 0x00; 0x07; 0x00; 0x03; 0x00;
  0x15; 0x04; 0x80; 0x31; 0x30; 0x30; 0x30; 0x35;
  0x42; 0x39; 0x2d; 0x30; 0x30; 0x31; 0x30; 0x39;
  0x34; 0x32; 0x30; 0x35; 0x30; 0x40; 0x00; 0x08;
  0x00; 0x17; 0x50; 0x00; 0x00; 0x00; 0x00; 0x00;
  0xf0; 0x00; 0x00; 0x00; 0x00; 0x00; 0x00; 0x00;
  0x00; 0x11; 0x00; 0x05; 0x00; 0xc0; 0xa8; 0x00;
  0x32; 0x00; 0x09; 0x00; 0x03; 0x09; 0xf1; 0x99;
  0x00; 0x0b; 0x00; 0x04; 0x00; 0x00; 0x00; 0x00;
  0x00; 0x06; 0x00; 0x02; 0x40; 0x20; 0x00; 0x07;
  0x00; 0x01; 0x64; 0x00; 0x0a; 0x00; 0x02; 0x00;
  0x01]%N.
Definition hnbap_ue_reg_req : list N := [
  0x00; 0x03;
  0x00; 0x1a; 0x00; 0x00; 0x03; 0x00; 0x05; 0x00;
  0x09; 0x0a; 0x62; 0x02; 0x11; 0x32; 0x54; 0x76;
  0x98; 0xf0; 0x00; 0x0c; 0x40; 0x01; 0x40; 0x00;
  0x0d; 0x00; 0x01; 0x0d]%N.
Definition hnbap_ue_reg_acc : list N := [
  0x20; 0x03;
  0x00; 0x17; 0x00; 0x00; 0x02; 0x00; 0x05; 0x00;
  0x09; 0x0a; 0x62; 0x02; 0x11; 0x32; 0x54; 0x76;
  0x98; 0xf0; 0x00; 0x04; 0x00; 0x03; 0x17; 0x00;
  0x00]%N.
(* :73-163 test_asn1_decoding *)
Definition read (m : msgdef) (data : list N) : option (N * N * bool * list (option val)) :=
  match pdu_in T_HNBAP_HNBAP_PDU data with
  | Some (d, p, _, o) => Some (d, p, d_ok (decode_msg m o), i_fields (d_ies (decode_msg m o)))
  | None => None
  end.
Example t_register : exists cell,
  match read M_HNBAP_HNBRegisterRequestIEs hnbap_reg_req with
  | Some (1%N, 1%N, true, fs) =>
      nth_error fs 0 = Some (Some (VSeq [Some (VOcts (chars "10005B9-0010942050@")); None] [])) /\
      In (Some (VOcts [0x40; 0x20]%N)) fs /\ In (Some (VOcts [0; 1]%N)) fs /\ In (Some (VOcts [0x64]%N)) fs /\ In (Some (VBits cell)) fs /\ cell = repeat false 28
  | _ => False
  end.
Proof. exists (repeat false 28). vm_compute. repeat split; auto 12. Qed.
Example t_ue_register :
  match read M_HNBAP_UERegisterRequestIEs hnbap_ue_reg_req with
  | Some (1%N, 3%N, true, Some (VChoice 0 (VOcts o)) :: _) => bcd_decode 16 o = Ok (chars "262011234567890" ++ [0]%N, 16)
  | _ => False
  end /\
  match read M_HNBAP_UERegisterAcceptIEs hnbap_ue_reg_acc with
  | Some (2%N, 3%N, true, Some (VChoice 0 (VOcts o)) :: _) => bcd_decode 16 o = Ok (chars "262011234567890" ++ [0]%N, 16)
  | _ => False
  end.
Proof. vm_compute. repeat split. Qed.
