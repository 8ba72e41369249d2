(* Model of /repo/src/iu_helpers.c *)
From Verif Require Import Base.

(* ------------------------------------------------------------------ *)
(* libosmocore src/utils.c osmo_bcd2char / osmo_char2bcd (external, trusted):
   called at iu_helpers.c:52,56 and :82,86 *)
Definition bcd2char (bcd : N) : N :=
  if (bcd <? 10)%N then (48 + bcd)%N else (65 + (bcd - 10))%N.
(* called at iu_helpers.c:82, 86 *)
Definition char2bcd (c : N) : N :=
  if ((48 <=? c) && (c <=? 57))%N then (c - 48)%N
  else if ((65 <=? c) && (c <=? 70))%N then (10 + (c - 65))%N
  else if ((97 <=? c) && (c <=? 102))%N then (10 + (c - 97))%N
  else 0%N.

(* iu_helpers.c:51-61, the for loop of ranap_bcd_decode.
   [out] is what has been written to the caller's buffer of [out_len] chars. *)
Fixpoint bcd_decode_loop (out_len : nat) (out : list N) (inp : list N)
  : outcome (list N) :=
  match inp with
  | [] => Ok out
  | ch :: rest =>
      do out1 <- put out_len out (bcd2char (N.land ch 15)) ;;
      if out_len <=? length out1 + 1 then Ok out1
      else
        let c := bcd2char (N.shiftr ch 4) in
        if (c =? 70)%N then Ok out1
        else
          do out2 <- put out_len out1 c ;;
          bcd_decode_loop out_len out2 rest
  end.

(* iu_helpers.c:46-64 ranap_bcd_decode: buffer content written and return value *)
Definition bcd_decode (out_len : nat) (inp : list N) : outcome (list N * nat) :=
  do out <- bcd_decode_loop out_len [] inp ;;
  do out' <- put out_len out 0%N ;;
  Ok (out', length out').

(* iu_helpers.c:79-89, the loop of ranap_imsi_encode.  [cap] is the real size
   of the buffer behind [out]; the C code ignores its out_len argument.  The
   string is the list of its characters without the NUL.  For an even length
   the branch at line 83 is never taken; for an odd length it is taken at the
   last character, which is the [c :: nil] case.  (strlen is assumed to fit
   unsigned int.) *)
Fixpoint imsi_encode_loop (cap : nat) (out : list N) (s : list N)
  : outcome (list N) :=
  match s with
  | [] => Ok out
  | c1 :: rest =>
      let lower := N.land (char2bcd c1) 15 in
      match rest with
      | [] => put cap out (N.lor (N.shiftl 15 4) lower)
      | c2 :: rest' =>
          let upper := N.land (char2bcd c2) 15 in
          do out' <- put cap out (N.lor (N.shiftl upper 4) lower) ;;
          imsi_encode_loop cap out' rest'
      end
  end.

(* iu_helpers.c:67-91 ranap_imsi_encode(out, out_len, in): octets written; the
   return value is their number.  [out_len] is unused, as in the code. *)
Definition imsi_encode (cap : nat) (out_len : nat) (s : list N) : outcome (list N) :=
  imsi_encode_loop cap [] s.

(* ------------------------------------------------------------------ *)
(* struct osmo_sockaddr (libosmocore), Linux layout: family at offset 0, port
   at offset 2 for both families, IPv4 address at offset 4, IPv6 address at
   offset 8.  The four fields do not overlap. *)
(* used at iu_helpers.c:128-130, 173, 181, 206 *)
Definition AF_INET : N := 2.
(* used at iu_helpers.c:169, 185, 211 *)
Definition AF_INET6 : N := 10.
(* struct osmo_sockaddr, arguments of iu_helpers.c:141, 197, 247, 278 *)
Record sockaddr := mkSockaddr {
  sa_family : N;
  sa_port : N;           (* host order value of the 16 bit port *)
  sa_v4 : list N;        (* the 4 octets of sin_addr, in memory order *)
  sa_v6 : list N         (* the 16 octets of sin6_addr *)
}.
(* iu_helpers.c:152 *)
Definition sockaddr_zero : sockaddr := mkSockaddr 0 0 (repeat 0%N 4) (repeat 0%N 16).
(* what C guarantees about a struct osmo_sockaddr (iu_helpers.c:141) *)
Definition sockaddr_ok (a : sockaddr) : bool :=
  (length (sa_v4 a) =? 4) && (length (sa_v6 a) =? 16)
  && bytes_ok (sa_v4 a) && bytes_ok (sa_v6 a) && (sa_port a <? 65536)%N.
(* the address octets that count for the family *)
(* the octets read at iu_helpers.c:205-218 *)
Definition sa_addr (a : sockaddr) : list N :=
  if (sa_family a =? AF_INET6)%N then sa_v6 a else sa_v4 a.

(* RANAP_IuTransportAssociation_t: [present] and the octets of the OCTET
   STRING in the union; RANAP_IuTransportAssociation.h *)
(* RANAP_IuTransportAssociation.h:24-30 *)
Inductive assoc_pr := PR_NOTHING | PR_gTP_TEI | PR_bindingID.
(* RANAP_IuTransportAssociation.h:33-46 *)
Record transp_assoc := mkAssoc { ta_present : assoc_pr; ta_octets : list N }.

(* libasn1c asn1bitstr_to_u32 (external, trusted): asserts size >= 4 *)
(* called at iu_helpers.c:101 *)
Definition asn1bitstr_to_u32 (b : list N) : outcome N :=
  match b with
  | b0 :: b1 :: b2 :: b3 :: _ => Ok (be32 b0 b1 b2 b3)
  | _ => Fault Assertion
  end.

(* iu_helpers.c:94-114 ranap_transp_assoc_decode.  [port] is the previous
   content of *port; result: return value and new content of *port. *)
Definition transp_assoc_decode (port : N) (ta : option transp_assoc) : outcome (Z * N) :=
  match ta with
  | None => Ok ((- EINVAL)%Z, port)
  | Some ta =>
      do result <- asn1bitstr_to_u32 (ta_octets ta) ;;
      if negb (N.land result 65535 =? 0)%N then Ok ((- EINVAL)%Z, port)
      else
        let port' := N.land (N.shiftr result 16) 65535 in
        if (port' =? 0)%N then Ok ((- EINVAL)%Z, port') else Ok (0%Z, port')
  end.

(* decimal rendering of an octet and inet_ntop(AF_INET) (libc, trusted):
   reads 4 octets, answers NULL if the text and its NUL do not fit *)
(* part of inet_ntop, called at iu_helpers.c:128, 130 *)
Definition dec_octet (b : N) : list N :=
  if (b <? 10)%N then [48 + b]%N
  else if (b <? 100)%N then [48 + b / 10; 48 + b mod 10]%N
  else [48 + b / 100; 48 + (b / 10) mod 10; 48 + b mod 10]%N.
(* part of inet_ntop, called at iu_helpers.c:128, 130 *)
Definition dotted_quad (a : list N) : list N :=
  match a with
  | [a0; a1; a2; a3] =>
      dec_octet a0 ++ [46%N] ++ dec_octet a1 ++ [46%N] ++ dec_octet a2 ++ [46%N] ++ dec_octet a3
  | _ => []
  end.
(* called at iu_helpers.c:128, 130 *)
Definition inet_ntop4 (a : list N) (addr_len : nat) : option (list N) :=
  let t := dotted_quad a in
  if length t + 1 <=? addr_len then Some t else None.

(* iu_helpers.c:117-138 ranap_transp_layer_addr_decode: return value and, on
   success, the text.  The size field is the length of the octet list. *)
Definition transp_layer_addr_decode (addr_len : nat) (buf : list N)
  : outcome (Z * option (list N)) :=
  let len := length buf in
  let finish off :=
    do a <- slice buf off 4 ;;
    match inet_ntop4 a addr_len with
    | Some t => Ok (0%Z, Some t)
    | None => Ok ((- EINVAL)%Z, None)
    end in
  do x213 <- (if 7 <=? len then do b0 <- rd buf 0 ;; Ok (b0 =? 53)%N else Ok false) ;;
  if x213 then finish 3
  else if 3 <? len then finish 0
  else Ok ((- EINVAL)%Z, None).

(* iu_helpers.c:141-195 ranap_transp_layer_addr_decode2: return value, *addr
   and the value written to *uses_x213_nsap (None: not written). *)
Definition transp_layer_addr_decode2 (buf : list N)
  : outcome (Z * sockaddr * option bool) :=
  let len := length buf in
  let addr := sockaddr_zero in                           (* line 152 memset *)
  let set4 off :=
    do a <- slice buf off 4 ;; Ok (mkSockaddr AF_INET 0 a (sa_v6 addr)) in
  let set6 off :=
    do a <- slice buf off 16 ;; Ok (mkSockaddr AF_INET6 0 (sa_v4 addr) a) in
  let einval := Ok ((- EINVAL)%Z, addr, None) in
  do x213 <- (if (len =? 7) || (len =? 20)
              then do b0 <- rd buf 0 ;; Ok (b0 =? 53)%N else Ok false) ;;
  if x213 then
    do b1 <- rd buf 1 ;;
    do b2 <- rd buf 2 ;;
    let icp := be16 b1 b2 in
    if (icp =? 0)%N then
      if negb (len =? 20) then einval
      else do a <- set6 3 ;; Ok (0%Z, a, Some true)
    else if (icp =? 1)%N then
      do a <- set4 3 ;; Ok (0%Z, a, Some true)
    else einval
  else if len =? 4 then
    do a <- set4 0 ;; Ok (0%Z, a, Some false)
  else if len =? 16 then
    do a <- set6 0 ;; Ok (0%Z, a, Some false)
  else einval.

(* iu_helpers.c:197-245 ranap_new_transp_layer_addr: return value and new
   content of *out ([out]: previous content). *)
Definition new_transp_layer_addr (out : list N) (addr : sockaddr) (use_x213 : bool)
  : Z * list N :=
  let build ip icp :=
    if use_x213 then
      (* line 222: calloc(20), AFI, ICP, memcpy of the address, rest zero *)
      [53%N] ++ store16be icp ++ ip ++ repeat 0%N (17 - length ip)
    else ip in
  if (sa_family addr =? AF_INET)%N then (0%Z, build (sa_v4 addr) 1%N)
  else if (sa_family addr =? AF_INET6)%N then (0%Z, build (sa_v6 addr) 0%N)
  else ((- EINVAL)%Z, out).

(* RANAP_TransportLayerInformation_t, built at iu_helpers.c:247-296 *)
Record transp_info := mkTli { tli_addr : list N; tli_assoc : transp_assoc }.

(* iu_helpers.c:247-276 ranap_new_transp_info_rtp; None is NULL *)
Definition new_transp_info_rtp (addr : sockaddr) (use_x213 : bool) : option transp_info :=
  if (sa_family addr =? AF_INET)%N || (sa_family addr =? AF_INET6)%N then
    let binding_id := store16be (sa_port addr) ++ [0; 0]%N in
    let '(rc, tla) := new_transp_layer_addr [] addr use_x213 in
    if (rc <? 0)%Z then None
    else Some (mkTli tla (mkAssoc PR_bindingID binding_id))
  else None.

(* iu_helpers.c:278-296 ranap_new_transp_info_gtp *)
Definition new_transp_info_gtp (addr : sockaddr) (tei : N) (use_x213 : bool)
  : option transp_info :=
  let binding_buf := store32be tei in
  let '(rc, tla) := new_transp_layer_addr [] addr use_x213 in
  if (rc <? 0)%Z then None
  else Some (mkTli tla (mkAssoc PR_gTP_TEI binding_buf)).
