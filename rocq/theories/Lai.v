(* Model of ranap_parse_lai and ranap_ip_from_transp_layer_addr
   (/repo/src/ranap_common.c) and of iu_grnc_id_parse (/repo/src/iu_client.c),
   with the libosmocore identifiers they work on. *)
From Verif Require Import Base.

(* libosmocore struct gprs_ra_id / struct osmo_routing_area_id: the same five
   values in a flat and in a nested record. *)
(* argument types of iu_client.c:224-309 *)
Record plmn := mkPlmn { p_mcc : N; p_mnc : N; p_mnc3 : bool }.
(* argument type of iu_client.c:891 *)
Record lai := mkLai { l_plmn : plmn; l_lac : N }.
(* argument type of iu_client.c:937, 243 *)
Record rai := mkRai { r_lai : lai; r_rac : N }.
(* argument type of ranap_common.c:498 *)
Record ra_id := mkRaId { ra_mcc : N; ra_mnc : N; ra_mnc3 : bool; ra_lac : N; ra_rac : N }.
(* argument type of iu_client.c:294, 420 *)
Record rnc_id := mkRncId { ri_plmn : plmn; ri_id : N }.

(* libosmocore gprs_rai_to_osmo (external, trusted): copies the fields *)
(* called at iu_client.c:488 *)
Definition gprs_rai_to_osmo (r : ra_id) : rai :=
  mkRai (mkLai (mkPlmn (ra_mcc r) (ra_mnc r) (ra_mnc3 r)) (ra_lac r)) (ra_rac r).

(* libosmocore osmo_mnc_cmp / osmo_plmn_cmp / osmo_lai_cmp / osmo_rai_cmp /
   osmo_rnc_id_cmp, as "compares equal" (external, trusted): the digit count
   matters only below 100 *)
(* called from the comparisons at iu_client.c:243-302 *)
Definition mnc_eqb (a : N) (a3 : bool) (b : N) (b3 : bool) : bool :=
  (a =? b)%N && (negb (a <? 100)%N || Bool.eqb a3 b3).
(* called from the comparisons at iu_client.c:243-302 *)
Definition plmn_eqb (a b : plmn) : bool :=
  (p_mcc a =? p_mcc b)%N && mnc_eqb (p_mnc a) (p_mnc3 a) (p_mnc b) (p_mnc3 b).
(* called at iu_client.c:891-928 *)
Definition lai_eqb (a b : lai) : bool :=
  plmn_eqb (l_plmn a) (l_plmn b) && (l_lac a =? l_lac b)%N.
(* called at iu_client.c:243-266, 937-973 *)
Definition rai_eqb (a b : rai) : bool :=
  lai_eqb (r_lai a) (r_lai b) && (r_rac a =? r_rac b)%N.
(* called at iu_client.c:294-302 *)
Definition rnc_id_eqb (a b : rnc_id) : bool :=
  plmn_eqb (ri_plmn a) (ri_plmn b) && (ri_id a =? ri_id b)%N.

(* libasn1c asn1str_to_u16 / asn1str_to_u8 (external, trusted): assert that the
   octet string is long enough *)
(* called at ranap_common.c:498-537, iu_client.c:451-504 *)
Definition asn1str_to_u16 (o : list N) : outcome N :=
  match o with b0 :: b1 :: _ => Ok (be16 b0 b1) | _ => Fault Assertion end.
(* called at iu_client.c:451-537 *)
Definition asn1str_to_u8 (o : list N) : outcome N :=
  match o with b0 :: _ => Ok b0 | _ => Fault Assertion end.

(* RANAP_LAI_t: two OCTET STRINGs *)
(* RANAP_LAI.h:25-32 *)
Record ranap_lai := mkRLai { lai_plmn : list N; lai_lac : list N }.

(* ranap_common.c:498-537 ranap_parse_lai: return value and *ra_id *)
Definition parse_lai (l : ranap_lai) : outcome (Z * ra_id) :=
  let init := mkRaId 0 0 false 65534 0 in                      (* line 504 *)
  if negb (length (lai_plmn l) =? 3) then Ok ((-1)%Z, init)
  else
    do b0 <- rd (lai_plmn l) 0 ;;
    do b1 <- rd (lai_plmn l) 1 ;;
    do b2 <- rd (lai_plmn l) 2 ;;
    let mcc := (N.land b0 15 * 100 + N.shiftr b0 4 * 10 + N.land b1 15)%N in
    let mnc2 := (N.land b2 15 * 10 + N.shiftr b2 4)%N in
    let mnc := if negb (N.shiftr b1 4 =? 15)%N then (mnc2 + N.shiftr b1 4 * 100)%N else mnc2 in
    let r := mkRaId mcc mnc false 65534 0 in
    if negb (length (lai_lac l) =? 2) then Ok ((-1)%Z, r)
    else
      do lac <- asn1str_to_u16 (lai_lac l) ;;
      let r := mkRaId mcc mnc false lac 0 in
      if (lac =? 0)%N || (lac =? 65534)%N then Ok ((-1)%Z, r) else Ok (0%Z, r).

(* libosmocore osmo_plmn_from_bcd (external, trusted): TS 24.008 coding *)
(* called at iu_client.c:420-431 *)
Definition plmn_from_bcd (b0 b1 b2 : N) : plmn :=
  let mcc := (N.land b0 15 * 100 + N.shiftr b0 4 * 10 + N.land b1 15)%N in
  if (N.shiftr b1 4 =? 15)%N
  then mkPlmn mcc (N.land b2 15 * 10 + N.shiftr b2 4)%N false
  else mkPlmn mcc (N.land b2 15 * 100 + N.shiftr b2 4 * 10 + N.shiftr b1 4)%N true.

(* RANAP_GlobalRNC_ID_t *)
(* RANAP_GlobalRNC-ID.h:24-30 *)
Record ranap_grnc := mkGrnc { g_plmn : list N; g_rnc : N }.

(* iu_client.c:420-431 iu_grnc_id_parse: None is the return value -1.  The
   (uint16_t) cast of rNC_ID is the mod. *)
Definition grnc_id_parse (g : ranap_grnc) : outcome (option rnc_id) :=
  if negb (length (g_plmn g) =? 3) then Ok None
  else
    do b0 <- rd (g_plmn g) 0 ;;
    do b1 <- rd (g_plmn g) 1 ;;
    do b2 <- rd (g_plmn g) 2 ;;
    Ok (Some (mkRncId (plmn_from_bcd b0 b1 b2) (g_rnc g mod 65536)%N)).

(* A 32 bit load from memory on a little- or big-endian host; htonl *)
(* a 32 bit load, ranap_common.c:544-558 *)
Definition load32 (le : bool) (b0 b1 b2 b3 : N) : N :=
  if le then be32 b3 b2 b1 b0 else be32 b0 b1 b2 b3.
(* htonl on a little-endian host, ranap_common.c:544-558 *)
Definition bswap32 (v : N) : N :=
  be32 (v mod 256) ((v / 256) mod 256) ((v / 65536) mod 256) ((v / 16777216) mod 256).
(* called at ranap_common.c:544-558 *)
Definition htonl (le : bool) (v : N) : N := if le then bswap32 v else v.

(* ranap_common.c:544-558 ranap_ip_from_transp_layer_addr on a host of the
   given endianness: None is -1, Some ip is return value 0 and *ip *)
Definition ip_from_transp_layer_addr (le : bool) (buf : list N) : option N :=
  match buf with
  | [b0; b1; b2; b3] => Some (load32 le b0 b1 b2 b3)
  | [x0; x1; x2; b0; b1; b2; b3] =>
      if ((x0 =? 53) && (x1 =? 0) && (x2 =? 1))%N
      then Some (htonl le (load32 le b0 b1 b2 b3)) else None
  | _ => None
  end.
