(* Properties C11-C13: LAI and Global RNC-ID parsing, transport address to IPv4 *)
From Verif Require Import Base Helpers Helpers_spec Lai Lai_proofs.

(* C11: never faults, fails with -1 exactly on malformed input; RAC is 0 *)
Theorem C11_parse_lai_total :
  forall l, exists rc r,
    parse_lai l = Ok (rc, r) /\ (rc = 0%Z \/ rc = (-1)%Z) /\ ra_rac r = 0%N /\
    (rc = 0%Z <-> length (lai_plmn l) = 3 /\ length (lai_lac l) = 2 /\
       be_value (lai_lac l) <> 0%N /\ be_value (lai_lac l) <> 65534%N).
Proof. exact parse_lai_total_l. Qed.
Print Assumptions C11_parse_lai_total.

(* C11: the value per TS 25.413 9.2.3.55: three MCC digits m1 m2 m3, then a
   filler 15 and two MNC digits, or three MNC digits f n2 n3 *)
Theorem C11_parse_lai_digits :
  forall m1 m2 m3 f n2 n3 c0 c1,
    (m1 < 16)%N -> (m2 < 16)%N -> (m3 < 16)%N -> (f < 16)%N -> (n2 < 16)%N -> (n3 < 16)%N ->
    be16 c0 c1 <> 0%N -> be16 c0 c1 <> 65534%N ->
    parse_lai (mkRLai [m1 + 16 * m2; m3 + 16 * f; n2 + 16 * n3]%N [c0; c1]) =
      Ok (0%Z, mkRaId (100 * m1 + 10 * m2 + m3)
                (if (f =? 15)%N then (10 * n2 + n3)%N else (100 * f + 10 * n2 + n3)%N)
                false (be16 c0 c1) 0).
Proof. exact parse_lai_value_l. Qed.
Print Assumptions C11_parse_lai_digits.
Example C11_ex : (* 901-70, LAC 0x2342 *)
  parse_lai (mkRLai [9 + 16 * 0; 1 + 16 * 15; 7 + 16 * 0]%N [35; 66]%N)
  = Ok (0%Z, mkRaId 901 70 false 9026 0).
Proof. reflexivity. Qed.

(* C12 *)
Theorem C12_mnc_digits_told_apart_refuted :
  (* MNC 26 and MNC 026 of MCC 262: same result; the Global RNC-ID parser tells them apart *)
  let two := [2 + 16 * 6; 2 + 16 * 15; 2 + 16 * 6]%N in
  let three := [2 + 16 * 6; 2 + 16 * 0; 2 + 16 * 6]%N in
  parse_lai (mkRLai two [0; 1]%N) = parse_lai (mkRLai three [0; 1]%N) /\
  grnc_id_parse (mkGrnc two 1) <> grnc_id_parse (mkGrnc three 1).
Proof. cbv zeta. split; [vm_compute; reflexivity|vm_compute; discriminate]. Qed.
Print Assumptions C12_mnc_digits_told_apart_refuted.

(* The two parsers read the same PLMN octets differently: LAI in TS 25.413
   order, Global RNC-ID in TS 24.008 order. *)
Theorem C12_grnc_parse_digits :
  forall m1 m2 m3 f n2 n3 id,
    (m1 < 16)%N -> (m2 < 16)%N -> (m3 < 16)%N -> (f < 16)%N -> (n2 < 16)%N -> (n3 < 16)%N ->
    (id < 65536)%N ->
    grnc_id_parse (mkGrnc [m1 + 16 * m2; m3 + 16 * f; n2 + 16 * n3]%N id) =
      Ok (Some (mkRncId (mkPlmn (100 * m1 + 10 * m2 + m3)
         (if (f =? 15)%N then (10 * n2 + n3)%N else (100 * n2 + 10 * n3 + f)%N)
         (negb (f =? 15)%N)) id)).
Proof. exact grnc_value_l. Qed.
Print Assumptions C12_grnc_parse_digits.
Theorem C12_grnc_parse_total :
  forall g, exists r, grnc_id_parse g = Ok r /\ (r = None <-> length (g_plmn g) <> 3).
Proof. exact grnc_total_l. Qed.
Print Assumptions C12_grnc_parse_total.
Example C12_ex : (* 901-70, RNC 2342 *)
  grnc_id_parse (mkGrnc [9 + 16 * 0; 1 + 16 * 15; 7 + 16 * 0]%N 2342) = Ok (Some (mkRncId (mkPlmn 901 70 false) 2342)) /\
  grnc_id_parse (mkGrnc [9; 241]%N 2342) = Ok None.
Proof. split; vm_compute; reflexivity. Qed.
Theorem C12_same_plmn_in_lai_and_grnc_refuted :
  (* 310-410 in the LAI is 310-104 in the Global RNC-ID of the same message *)
  exists plmn_octets r g,
    parse_lai (mkRLai plmn_octets [0; 1]%N) = Ok (0%Z, r) /\
    grnc_id_parse (mkGrnc plmn_octets 1) = Ok (Some g) /\
    ra_mcc r = 310%N /\ ra_mnc r = 410%N /\
    p_mcc (ri_plmn g) = 310%N /\ p_mnc (ri_plmn g) = 104%N.
Proof. exists [19; 64; 1]%N. do 2 eexists. repeat split; vm_compute; reflexivity. Qed.
Print Assumptions C12_same_plmn_in_lai_and_grnc_refuted.

(* C13 *)
Theorem C13_ip_plain_vs_x213 :
  (* the two IPv4 encodings give the same value exactly on a big-endian host
     or for an address that reads the same backwards *)
  forall le a b c d, bytes_ok [a;b;c;d] = true ->
    (ip_from_transp_layer_addr le [a;b;c;d] = ip_from_transp_layer_addr le [53;0;1;a;b;c;d]%N
     <-> le = false \/ (a = d /\ b = c)).
Proof. exact ip_plain_x213_l. Qed.
Print Assumptions C13_ip_plain_vs_x213.
Theorem C13_ip_accepts_iff :
  forall le octets,
    ip_from_transp_layer_addr le octets <> None <->
      (length octets = 4 \/ exists ip, length ip = 4 /\ octets = [53; 0; 1]%N ++ ip).
Proof. exact ip_accepts_l. Qed.
Print Assumptions C13_ip_accepts_iff.
Theorem C13_ip_value :
  forall a b c d, bytes_ok [a;b;c;d] = true ->
    ip_from_transp_layer_addr false [a;b;c;d] = Some (be_value [a;b;c;d]) /\
    ip_from_transp_layer_addr true [a;b;c;d] = Some (be_value [d;c;b;a]) /\
    (forall le, ip_from_transp_layer_addr le [53;0;1;a;b;c;d]%N = Some (be_value [a;b;c;d])).
Proof. exact ip_value_l. Qed.
Print Assumptions C13_ip_value.
Theorem C13_ip_consistent_refuted :
  exists ip, length ip = 4 /\ bytes_ok ip = true /\
    ip_from_transp_layer_addr true ip <> ip_from_transp_layer_addr true ([53;0;1]%N ++ ip).
Proof. exists [192;168;1;2]%N. repeat split; vm_compute; discriminate. Qed.
Print Assumptions C13_ip_consistent_refuted.
Theorem C13_own_x213_encoding_accepted_refuted :
  (* every X.213 address this library itself produces is rejected *)
  forall le old addr, sockaddr_ok addr = true ->
    (sa_family addr = AF_INET \/ sa_family addr = AF_INET6) ->
    ip_from_transp_layer_addr le (snd (new_transp_layer_addr old addr true)) = None.
Proof. exact ip_rejects_own_x213_l. Qed.
Print Assumptions C13_own_x213_encoding_accepted_refuted.
Example C13_ex : sockaddr_ok (mkSockaddr AF_INET 0 [10;0;0;1]%N (repeat 0%N 16)) = true.
Proof. reflexivity. Qed.
