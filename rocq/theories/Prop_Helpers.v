(* Properties C01-C10: src/iu_helpers.c *)
From Verif Require Import Base Helpers Helpers_spec Helpers_proofs.

(* C01 *)
Theorem C01_imsi_roundtrip :
  forall (imsi : list N) (cap out_len_arg : nat),
    forallb is_digit imsi = true -> (length imsi + 1) / 2 <= cap ->
    exists octets,
      imsi_encode cap out_len_arg imsi = Ok octets /\
      length octets = (length imsi + 1) / 2 /\
      forall out_len, length imsi + 1 <= out_len ->
        bcd_decode out_len octets = Ok (imsi ++ [0%N], S (length imsi)).
Proof. exact imsi_roundtrip_l. Qed.
Print Assumptions C01_imsi_roundtrip.
Example C01_ex : (* "901700000043219" *)
  forallb is_digit [57;48;49;55;48;48;48;48;48;48;52;51;50;49;57]%N = true /\ (15 + 1) / 2 <= 16.
Proof. split; [reflexivity|]. apply Nat.leb_le. reflexivity. Qed.

Theorem C01_imsi_injective :
  forall s1 s2 cap n1 n2 o,
    forallb is_digit s1 = true -> forallb is_digit s2 = true ->
    imsi_encode cap n1 s1 = Ok o -> imsi_encode cap n2 s2 = Ok o -> s1 = s2.
Proof. exact imsi_encode_inj_l. Qed.
Print Assumptions C01_imsi_injective.

(* the octets of any text that is not too long: each character is one half octet, and
   an odd number of characters is filled up with 15 *)
Theorem C01_imsi_octets :
  forall s cap n o, imsi_encode cap n s = Ok o ->
    length o = (length s + 1) / 2 /\
    (forall i c, nth_error s i = Some c -> half o i = char_value c) /\
    (Nat.odd (length s) = true -> half o (length s) = 15%N).
Proof. exact imsi_octets_l. Qed.
Print Assumptions C01_imsi_octets.
Example C01_octets_ex : (* "1aB" *) imsi_encode 16 16 [49; 97; 66]%N = Ok [161; 251]%N /\ char_value 97 = 10%N /\ char_value 66 = 11%N.
Proof. repeat split. Qed.

(* C02: exactly when the decoder writes past the buffer *)
Theorem C02_bcd_decode_overflow_iff :
  forall (out_len : nat) (octets : list N), bytes_ok octets = true ->
    (bcd_decode out_len octets = Fault OobWrite <->
     out_len = 0 \/ (Nat.Odd out_len /\ out_len <= length (packed_text octets))).
Proof. exact bcd_decode_fault_iff. Qed.
Print Assumptions C02_bcd_decode_overflow_iff.

Theorem C02_bcd_decode_even_safe_partial :
  (* missing: odd out_len, where the claim is false, see below *)
  forall m octets, bytes_ok octets = true -> 0 < m ->
    exists out r, bcd_decode (2 * m) octets = Ok (out, r) /\ length out <= 2 * m.
Proof. exact bcd_decode_even_safe_l. Qed.
Print Assumptions C02_bcd_decode_even_safe_partial.
Example C02_even_ex : bytes_ok [33; 67; 101; 135; 249]%N = true /\ 0 < 8.
Proof. split; [reflexivity|lia]. Qed.

Theorem C02_bcd_decode_in_bounds_refuted :
  exists out_len octets, 1 < out_len /\ bytes_ok octets = true /\
    bcd_decode out_len octets = Fault OobWrite.
Proof. exists 3, [33; 67]%N. repeat split; try lia; vm_compute; reflexivity. Qed.
Print Assumptions C02_bcd_decode_in_bounds_refuted.

(* C03 *)
Theorem C03_bcd_decode_shape :
  forall out_len octets out r, bytes_ok octets = true ->
    bcd_decode out_len octets = Ok (out, r) ->
    exists text, out = text ++ [0%N] /\ r = S (length text) /\ r <= out_len /\
      Forall (fun c => In c symbols) text /\
      text = firstn (out_len - 1) (packed_text octets).
Proof. exact bcd_decode_shape_l. Qed.
Print Assumptions C03_bcd_decode_shape.
Example C03_ex : bcd_decode 4 [33; 67; 101]%N = Ok ([49; 50; 51; 0]%N, 4).
Proof. reflexivity. Qed.

(* C04 *)
Theorem C04_imsi_encode_overflow_iff :
  forall cap out_len imsi,
    imsi_encode cap out_len imsi = Fault OobWrite <-> cap < (length imsi + 1) / 2.
Proof. exact imsi_encode_fault_iff. Qed.
Print Assumptions C04_imsi_encode_overflow_iff.
Example C04_ex : imsi_encode 7 16 (repeat 49%N 15) = Fault OobWrite /\ 7 < (length (repeat 49%N 15) + 1) / 2 /\
  imsi_encode 8 16 (repeat 49%N 15) <> Fault OobWrite.
Proof. split; [vm_compute; reflexivity|]. split; [vm_compute; repeat constructor|vm_compute; discriminate]. Qed.

Theorem C04_imsi_encode_honours_out_len_refuted :
  exists imsi out_len, forallb is_digit imsi = true /\ out_len = 16 /\
    imsi_encode out_len out_len imsi = Fault OobWrite.
Proof. exists (repeat 49%N 33), 16. repeat split; vm_compute; reflexivity. Qed.
Print Assumptions C04_imsi_encode_honours_out_len_refuted.

(* C05 *)
Theorem C05_tla_roundtrip :
  forall old addr x213,
    sockaddr_ok addr = true -> (sa_family addr = AF_INET \/ sa_family addr = AF_INET6) ->
    exists o addr',
      new_transp_layer_addr old addr x213 = (0%Z, o) /\
      transp_layer_addr_decode2 o = Ok (0%Z, addr', Some x213) /\
      sa_family addr' = sa_family addr /\ sa_addr addr' = sa_addr addr.
Proof. exact tla_roundtrip_l. Qed.
Print Assumptions C05_tla_roundtrip.
Theorem C05_tla_encoding_format :
  forall old addr x213,
    sockaddr_ok addr = true -> (sa_family addr = AF_INET \/ sa_family addr = AF_INET6) ->
    exists o, new_transp_layer_addr old addr x213 = (0%Z, o) /\
      tla o x213 (sa_family addr =? AF_INET6)%N (sa_addr addr).
Proof. exact new_tla_spec. Qed.
Print Assumptions C05_tla_encoding_format.
Theorem C05_tla_other_family :
  forall old addr x213, sa_family addr <> AF_INET -> sa_family addr <> AF_INET6 ->
    new_transp_layer_addr old addr x213 = ((- EINVAL)%Z, old).
Proof. exact new_tla_family. Qed.
Print Assumptions C05_tla_other_family.
Example C05_ex : let a := mkSockaddr AF_INET 2152 [53; 0; 0; 1]%N (repeat 0%N 16) in
  sockaddr_ok a = true /\ new_transp_layer_addr [] a true
    = (0%Z, [53;0;1; 53;0;0;1; 0;0;0;0;0;0;0;0;0;0;0;0;0]%N).
Proof. split; reflexivity. Qed.

(* C06 *)
Theorem C06_tla_decode_exact :
  forall octets, bytes_ok octets = true ->
    (exists x213 v6 ip, tla octets x213 v6 ip /\
       transp_layer_addr_decode2 octets =
         Ok (0%Z, (if v6 then mkSockaddr AF_INET6 0 (repeat 0%N 4) ip
                   else mkSockaddr AF_INET 0 ip (repeat 0%N 16)), Some x213)) \/
    ((forall x213 v6 ip, ~ tla octets x213 v6 ip) /\
     transp_layer_addr_decode2 octets = Ok ((- EINVAL)%Z, sockaddr_zero, None)).
Proof. exact decode2_exact_l. Qed.
Print Assumptions C06_tla_decode_exact.
Example C06_ex : transp_layer_addr_decode2 [53; 0; 0; 1; 2; 3; 4]%N = Ok ((-22)%Z, sockaddr_zero, None).
Proof. reflexivity. Qed.

(* C07 *)
Theorem C07_legacy_agrees_ipv4_partial :
  (* missing: octets that are not one of the IPv4 formats, where the legacy
     function still reports success; see the refutation *)
  forall octets ip x213 addr_len,
    tla octets x213 false ip -> length (dotted_quad ip) < addr_len ->
    transp_layer_addr_decode addr_len octets = Ok (0%Z, Some (dotted_quad ip)).
Proof. exact legacy_agrees_l. Qed.
Print Assumptions C07_legacy_agrees_ipv4_partial.
Example C07_ex : tla [53; 0; 1; 10; 0; 0; 1]%N true false [10; 0; 0; 1]%N /\ length (dotted_quad [10; 0; 0; 1]%N) < 16.
Proof. split; [exact (tla_x4_short [10; 0; 0; 1]%N eq_refl)|vm_compute; repeat constructor]. Qed.
Theorem C07_legacy_in_bounds :
  forall addr_len octets, exists r, transp_layer_addr_decode addr_len octets = Ok r.
Proof. exact legacy_no_fault_l. Qed.
Print Assumptions C07_legacy_in_bounds.
(* what the legacy function makes of any octets *)
Theorem C07_legacy_exact :
  forall addr_len octets,
    transp_layer_addr_decode addr_len octets =
      if length octets <? 4 then Ok ((- EINVAL)%Z, None)
      else
        let ip := firstn 4 (if (7 <=? length octets) && (nth 0 octets 0 =? 53)%N
                            then skipn 3 octets else octets) in
        if length (dotted_quad ip) <? addr_len then Ok (0%Z, Some (dotted_quad ip))
        else Ok ((- EINVAL)%Z, None).
Proof. exact legacy_exact_l. Qed.
Print Assumptions C07_legacy_exact.
(* [dotted_quad] is the text of four octets *)
Theorem C07_text :
  forall a b c d, bytes_ok [a; b; c; d] = true ->
    exists ta tb tc td, dotted_quad [a; b; c; d] = ta ++ [46%N] ++ tb ++ [46%N] ++ tc ++ [46%N] ++ td /\
      in_decimal ta a /\ in_decimal tb b /\ in_decimal tc c /\ in_decimal td d.
Proof. exact dotted_quad_ok. Qed.
Print Assumptions C07_text.
Example C07_text_ex : bytes_ok [192; 0; 2; 10]%N = true /\ in_decimal [49; 57; 50]%N 192.
Proof. repeat split; discriminate. Qed.
Theorem C07_legacy_agrees_refuted :
  (* the IPv6 address 2001:db8::1 is reported as IPv4 address 32.1.13.184 *)
  exists octets text addr,
    transp_layer_addr_decode 16 octets = Ok (0%Z, Some text) /\
    transp_layer_addr_decode2 octets = Ok (0%Z, addr, Some false) /\
    sa_family addr = AF_INET6 /\
    text = [51;50;46;49;46;49;51;46;49;56;52]%N.
Proof.
  exists [32;1;13;184;0;0;0;0;0;0;0;0;0;0;0;1]%N. do 2 eexists.
  repeat split; vm_compute; reflexivity.
Qed.
Print Assumptions C07_legacy_agrees_refuted.

(* C08 *)
Theorem C08_rtp_port_roundtrip :
  forall addr x213 tli prev, sockaddr_ok addr = true ->
    new_transp_info_rtp addr x213 = Some tli ->
    transp_assoc_decode prev (Some (tli_assoc tli)) =
      Ok ((if (sa_port addr =? 0)%N then (- EINVAL)%Z else 0%Z), sa_port addr).
Proof. exact rtp_port_l. Qed.
Print Assumptions C08_rtp_port_roundtrip.
Theorem C08_rtp_address :
  forall addr x213 tli, sockaddr_ok addr = true ->
    new_transp_info_rtp addr x213 = Some tli ->
    tla (tli_addr tli) x213 (sa_family addr =? AF_INET6)%N (sa_addr addr) /\
    ta_present (tli_assoc tli) = PR_bindingID.
Proof. exact rtp_addr_l. Qed.
Print Assumptions C08_rtp_address.
Theorem C08_rtp_null_iff :
  forall addr x213, new_transp_info_rtp addr x213 = None <->
    (sa_family addr <> AF_INET /\ sa_family addr <> AF_INET6).
Proof. exact rtp_null_iff. Qed.
Print Assumptions C08_rtp_null_iff.
Example C08_ex : let a := mkSockaddr AF_INET6 4000 (repeat 0%N 4) (repeat 7%N 16) in
  sockaddr_ok a = true /\ exists t, new_transp_info_rtp a false = Some t.
Proof. split; [reflexivity|]. eexists; reflexivity. Qed.

(* which associations the port decoder accepts, for every input *)
Theorem C08_port_decode_exact :
  forall port ta,
    (ta = None -> transp_assoc_decode port ta = Ok ((- EINVAL)%Z, port)) /\
    (forall pr o, ta = Some (mkAssoc pr o) -> length o < 4 ->
       transp_assoc_decode port ta = Fault Assertion) /\
    (forall pr p0 p1 z0 z1 rest, ta = Some (mkAssoc pr ([p0; p1; z0; z1] ++ rest)) ->
       bytes_ok [p0; p1; z0; z1] = true ->
       transp_assoc_decode port ta =
         if ((z0 =? 0) && (z1 =? 0))%N
         then Ok (if (be_value [p0; p1] =? 0)%N then (- EINVAL)%Z else 0%Z, be_value [p0; p1])
         else Ok ((- EINVAL)%Z, port)).
Proof. exact assoc_decode_exact_l. Qed.
Print Assumptions C08_port_decode_exact.
Example C08_port_ex : bytes_ok [15; 160; 0; 0]%N = true /\ be_value [15; 160]%N = 4000%N.
Proof. split; reflexivity. Qed.

(* C09 *)
Theorem C09_gtp_not_rtp_refuted :
  exists addr tei tli, sockaddr_ok addr = true /\ (tei < 2^32)%N /\
    new_transp_info_gtp addr tei true = Some tli /\
    transp_assoc_decode 0 (Some (tli_assoc tli)) = Ok (0%Z, 4660%N).
Proof.
  exists (mkSockaddr AF_INET 0 [10;0;0;1]%N (repeat 0%N 16)), 305397760%N. (* 0x12340000 *)
  eexists. repeat split; vm_compute; reflexivity.
Qed.
Print Assumptions C09_gtp_not_rtp_refuted.
(* a TEID is refused as a port, and the port left as it was, unless its two low octets
   are zero; if they are, the two high octets are taken for a port (and TEID 0 for
   port 0, with the result "invalid") *)
Theorem C09_gtp_refused_partial :
  forall addr tei x213 tli port, sockaddr_ok addr = true -> (tei < 2^32)%N ->
    new_transp_info_gtp addr tei x213 = Some tli ->
    transp_assoc_decode port (Some (tli_assoc tli)) =
      if (tei mod 65536 =? 0)%N
      then Ok (if (tei =? 0)%N then (- EINVAL)%Z else 0%Z, (tei / 65536)%N)
      else Ok ((- EINVAL)%Z, port).
Proof. exact gtp_decode_l. Qed.
Print Assumptions C09_gtp_refused_partial.
Example C09_ex :
  let addr := mkSockaddr AF_INET 0 [10;0;0;1]%N (repeat 0%N 16) in
  sockaddr_ok addr = true /\
  exists tli, new_transp_info_gtp addr 305419896 true = Some tli /\
    transp_assoc_decode 7 (Some (tli_assoc tli)) = Ok ((- EINVAL)%Z, 7%N).
Proof. split; [reflexivity|]. eexists. split; vm_compute; reflexivity. Qed.

(* C10 *)
Theorem C10_gtp_tei :
  forall addr tei x213 tli, sockaddr_ok addr = true ->
    new_transp_info_gtp addr tei x213 = Some tli ->
    tla (tli_addr tli) x213 (sa_family addr =? AF_INET6)%N (sa_addr addr) /\
    ta_present (tli_assoc tli) = PR_gTP_TEI /\
    length (ta_octets (tli_assoc tli)) = 4 /\
    ((tei < 2^32)%N -> be_value (ta_octets (tli_assoc tli)) = tei).
Proof. exact gtp_l. Qed.
Print Assumptions C10_gtp_tei.
Theorem C10_gtp_null_iff :
  forall addr tei x213, new_transp_info_gtp addr tei x213 = None <->
    (sa_family addr <> AF_INET /\ sa_family addr <> AF_INET6).
Proof. exact gtp_null_iff. Qed.
Print Assumptions C10_gtp_null_iff.
Example C10_ex : let a := mkSockaddr AF_INET 0 [10;0;0;1]%N (repeat 0%N 16) in
  sockaddr_ok a = true /\ exists t, new_transp_info_gtp a 305419896 true = Some t.
Proof. split; [reflexivity|]. eexists; reflexivity. Qed.
