(* Model of the home NodeB emulator hnb-test: /repo/tests/hnb-test.c,
   hnb-test-rua.c and hnb-test-ranap.c.
   Simplifications: what is printed or logged is left out except for what is
   reported to the operator (constructors of [heff]); the write queue never
   fills up and sends what is put into it in order; memory that the VTY commands
   allocate is not accounted for; start-up (hnb-test.c:913-1008) is left out. *)
From Verif Require Import Base Helpers Aper Container RanapTypes RuaTypes HnbapTypes RanapTab RuaTab HnbapTab
  Dispatch Factory_spec Factory RuaFactory Stack.
From Coq Require Import String List.
Local Open Scope list_scope.
Local Open Scope string_scope.
Local Open Scope list_scope.

(* struct hnbtest_chan hnb-test.h:44-48 (the IMSI is not used again) *)
Record chan := mkChan { ch_ps : bool; ch_conn : N }.
(* struct hnb_test hnb-test.h:50-79: the members that are used, and the static
   conn_id of hnb-test.c:878 *)
Record hnb := mkHnb { h_rnc : N; h_ctx : N; h_cs : option chan; h_next : N }.
(* hnb-test.c:74-77, 878 *)
Definition hnb_start : hnb := mkHnb 0 0 None 42.

(* What is visible from outside: a message put into the write queue, with its
   payload protocol identifier, and the lines printed at hnb-test.c:160, 187,
   428, 269, 403, 301, 468 and the closing of the connection 590, 597 *)
Inductive heff :=
| HSend (ppid : N) (octets : list N)
| HRegistered (rnc_id : N)
| HUe (imsi : list N) (ctx_id : N)
| HNas (octets : list N)
| HLuAccept
| HLuReject
| HPaging (imsi : list N)
| HClose.

(* Library functions: byte order of the host (pointers and long have 64 bits);
   tlv_parse with gsm48_mm_att_tlvdef (None: it fails, otherwise the value of
   each tag); SRES for a RAND (osmo_auth_gen_vec2 with the key of
   hnb-test.c:345-353); the value of the uninitialised local variable sent_tmsi
   hnb-test.c:391 *)
Record henv := mkHenv {
  he_le : bool;
  he_tlv : list N -> option (N -> option (list N));
  he_sres : list N -> list N;
  he_tmsi : bool }.

(* what a receive function does: return value, the state it leaves, effects,
   contents allocated by the decoders and contents released.  As for Dispatch.v,
   the PDU structure itself is not accounted for, except for the octets of its
   value, which nothing releases. *)
(* vocabulary: result of hnb-test.c:472-566 *)
Record hres := mkHres { y_rc : Z; y_hnb : hnb; y_eff : list heff; y_alloc : list val; y_freed : list val }.

(* constants of gsm_04_08.h (libosmocore) used at hnb-test.c:194-452 *)
Definition PDISC_MM : N := 0x05.
(* used at hnb-test.c:394-413, 198, 215, 226, 838 *)
Definition MT_MM_LOC_UPD_ACCEPT : N := 0x02. Definition MT_MM_LOC_UPD_REJECT : N := 0x04.
(* hnb-test.c:838, 226 *)
Definition MT_MM_LOC_UPD_REQUEST : N := 0x08. Definition MT_MM_AUTH_REQ : N := 0x12.
(* hnb-test.c:226, 394 *)
Definition MT_MM_AUTH_RESP : N := 0x14. Definition MT_MM_ID_REQ : N := 0x18.
(* hnb-test.c:198, 215 *)
Definition MT_MM_ID_RESP : N := 0x19. Definition MT_MM_TMSI_REALL_COMPL : N := 0x1b.
(* hnb-test.c:408, 289 *)
Definition MT_MM_INFO : N := 0x32. Definition IE_MOBILE_ID : N := 0x17.
(* hnb-test.c:290, 306, 314 *)
Definition IE_NAME_LONG : N := 0x43. Definition IE_NAME_SHORT : N := 0x45.
(* hnb-test.c:291 *)
Definition MI_TYPE_TMSI : N := 0x04.
(* hnb-test.h:18-22 *)
Definition PPI_RUA : N := 19. Definition PPI_HNBAP : N := 20.

(* ---------------- sending ---------------- *)
(* osmo_wqueue_enqueue of what a RUA factory function returned; NULL is
   dereferenced.  hnb-test.c:244, 818, 888 *)
Definition enqueue (w : outcome wrapped) : outcome (list heff) :=
  match w with
  | Fault f => Fault f
  | Ok w => match w_msg w with Some (b, ppid) => Ok [HSend ppid b] | None => Fault NullDeref end
  end.
(* hnb_test_tx_dt hnb-test.c:232-246: return value and effects *)
Definition tx_dt (h : hnb) (txm : option (list N)) : outcome (Z * list heff) :=
  match h_cs h with
  | None => Ok ((-1)%Z, [])
  | Some c => do e <- enqueue (rua_new_dt (ch_ps c) (ch_conn c) txm) ;; Ok (0%Z, e)
  end.
(* gen_nas_id_resp hnb-test.c:194-207 *)
Definition id_resp : list N := [PDISC_MM; MT_MM_ID_RESP; 0x09; 0x03; 0x31; 0x91; 0x06; 0x00; 0x28; 0x47; 0x11; 0xf2]%N.
(* gen_nas_tmsi_realloc_compl hnb-test.c:209-217 *)
Definition tmsi_realloc_compl : list N := [PDISC_MM; MT_MM_TMSI_REALL_COMPL].
(* gen_nas_auth_resp hnb-test.c:219-230 *)
Definition auth_resp (sres : list N) : list N := [PDISC_MM; N.lor 0x80 MT_MM_AUTH_RESP] ++ firstn 4 sres.
(* hnb_test_tx_iu_release_req hnb-test.c:364-371: cause
   release_due_to_UE_generated_signalling_connection_release (40) *)
Definition tx_iu_release_req (h : hnb) : outcome (Z * list heff) :=
  tx_dt h (r_msg (new_msg_iu_rel_req (Factory_spec.mkCause 1 40))).
(* hnb_test_tx_iu_release_compl hnb-test.c:373-376 *)
Definition tx_iu_release_compl (h : hnb) : outcome (Z * list heff) := tx_dt h (r_msg new_msg_iu_rel_compl).

(* ---------------- NAS ---------------- *)
(* hnb_test_nas_rx_lu_accept hnb-test.c:267-297: None is -1, otherwise the value
   of sent_tmsi.  gsm48_decode_lai2 reads the five octets after the header. *)
Definition rx_lu_accept (E : henv) (d : list N) : outcome (option bool) :=
  if (List.length d <? 7)%nat then Fault OobRead
  else match he_tlv E (skipn 2 d) with
  | None => Ok None
  | Some tp =>
      match tp IE_MOBILE_ID with
      | None => Ok (Some (he_tmsi E))
      | Some _ =>
          match tp IE_NAME_SHORT with
          | None => Fault NullDeref
          | Some [] => Fault OobRead
          | Some (x :: _) => Ok (Some (N.land x 15 =? MI_TYPE_TMSI)%N)
          end
      end
  end.
(* hnb_test_nas_rx_mm_info hnb-test.c:299-321 with parse_mm 248-265: for a name
   of length 0 gsm_7bit_decode_n is told to read 255 septets *)
Definition rx_mm_info (E : henv) (d : list N) : outcome unit :=
  match he_tlv E (skipn 2 d) with
  | None => Ok tt
  | Some tp =>
      match tp IE_NAME_SHORT, tp IE_NAME_LONG with
      | Some [], _ => Fault OobRead
      | _, Some [] => Fault OobRead
      | _, _ => Ok tt
      end
  end.
(* hnb_test_nas_rx_auth_req hnb-test.c:323-362; struct gsm48_auth_req: one octet,
   then RAND *)
Definition rx_auth_req (E : henv) (h : hnb) (d : list N) : outcome (Z * list heff) :=
  if (List.length d - 2 <? 17)%nat then Ok ((-1)%Z, [])
  else tx_dt h (r_msg (new_msg_dt 0 (auth_resp (he_sres E (firstn 16 (skipn 3 d)))))).
(* effects put before those of the rest *)
(* vocabulary: the lines printed at hnb-test.c:269, 301, 403 come first *)
Definition told (e : list heff) (r : outcome (Z * list heff)) : outcome (Z * list heff) :=
  do p <- r ;; let '(rc, l) := p in Ok (rc, e ++ l).
(* hnb_test_nas_rx_mm hnb-test.c:378-423; gsm48_hdr_msg_type masks the sequence
   number bits of a mobility management message *)
Definition rx_mm (E : henv) (h : hnb) (d : list N) : outcome (Z * list heff) :=
  match h_cs h with
  | None => Ok ((-1)%Z, [])
  | Some c =>
      if ch_ps c then Fault Assertion
      else
        let mt := N.land (nth 1 d 0%N) 0x3f in
        if (mt =? MT_MM_ID_REQ)%N then tx_dt h (r_msg (new_msg_dt 0 id_resp))
        else if (mt =? MT_MM_LOC_UPD_ACCEPT)%N then
          told [HLuAccept]
            (do r <- rx_lu_accept E d ;;
             match r with
             | None => Ok ((-1)%Z, [])
             | Some true => tx_dt h (r_msg (new_msg_dt 0 tmsi_realloc_compl))
             | Some false => Ok (0%Z, [])
             end)
        else if (mt =? MT_MM_LOC_UPD_REJECT)%N then Ok (0%Z, [HLuReject])
        else if (mt =? MT_MM_INFO)%N then
          do _ <- rx_mm_info E d ;; do p <- tx_iu_release_req h ;; Ok (0%Z, snd p)
        else if (mt =? MT_MM_AUTH_REQ)%N then rx_auth_req E h d
        else Ok (0%Z, [])
  end.
(* hnb_test_nas_rx_dtap hnb-test.c:425-452: effects *)
Definition rx_dtap (E : henv) (h : hnb) (d : list N) : outcome (list heff) :=
  if (List.length d <? 2)%nat then Ok [HNas d]
  else if (N.land (nth 0 d 0) 15 =? PDISC_MM)%N then do p <- rx_mm E h d ;; Ok (HNas d :: snd p)
  else Ok [HNas d].

(* ---------------- RANAP ---------------- *)
(* hnb-test-ranap.c:16-59, lines 45-50: the number of permitted algorithms and
   the first of them, as found where a Security Mode Command has them.  A message
   of another type is read through the wrong member of the union: `count' is
   then the low half of ChosenEncryptionAlgorithm (Security Mode Complete) or of
   the cause value (Security Mode Reject), and `array' a pointer whose value is
   ChosenIntegrityProtectionAlgorithm or the class of the cause, which is not the
   address of anything.  (On a big-endian host `count' is the high half, 0.) *)
Definition first_alg (E : henv) (m : msgdef) (s : ies) : outcome (option Z) :=
  if String.eqb (m_key m) "SecurityModeCommandIEs" then
    match comp 0 (field m s "id-IntegrityProtectionInformation") with
    | Some (VList (VInt a :: _)) => Ok (Some a)
    | _ => Ok None
    end
  else
    let count := if String.eqb (m_key m) "SecurityModeCompleteIEs" then c_int (field m s "id-ChosenEncryptionAlgorithm")
                 else IuClient.c_value (c_cause (field m s "id-Cause")) in
    if he_le E && (1 <=? count)%N then Fault NullDeref else Ok None.
(* hnb_test_rua_dt_handle_ranap hnb-test-ranap.c:16-59; ranap_cn_rx_co calls it
   only with a message it has decoded *)
Definition dt_handle_ranap (E : henv) (h : hnb) (g : rmsg) : outcome (list heff) :=
  match g_body g with
  | None => Ok []
  | Some (m, s) =>
      if (g_proc g =? 20)%N then rx_dtap E h (c_octs (field m s "id-NAS-PDU"))
      else if (g_proc g =? 6)%N then
        do a <- first_alg E m s ;;
        match a with
        | None => Ok []
        | Some a => do p <- tx_dt h (r_msg (new_msg_sec_mod_compl a 0)) ;; Ok (snd p)
        end
      else if (g_proc g =? 1)%N then do p <- tx_iu_release_compl h ;; Ok (snd p)
      else Ok []
  end.
(* the characters of a string, without its end *)
(* the buffer imsi[16] hnb-test-ranap.c:63, hnb-test.c:170 *)
Definition bcd_text (o : list N) : outcome (list N) := do p <- bcd_decode 16 o ;; Ok (removelast (fst p)).
(* hnb_test_rua_cl_handle_ranap hnb-test-ranap.c:61-86; in the zeroed union
   `present' is 0 *)
Definition cl_handle_ranap (g : rmsg) : outcome (list heff) :=
  if (g_proc g =? 14)%N then
    match g_body g with
    | Some (m, s) =>
        match field m s "id-PermanentNAS-UE-ID" with
        | Some (VChoice 0 (VOcts o)) => do t <- bcd_text o ;; Ok [HPaging t]
        | _ => Ok [HPaging []]
        end
    | None => Ok [HPaging []]
    end
  else Ok [].
(* the callback is called once or not at all: ranap_common_cn.c:411-427, 659-675 *)
Fixpoint each {A} (f : A -> outcome (list heff)) (l : list A) : outcome (list heff) :=
  match l with [] => Ok [] | a :: r => do e <- f a ;; do e' <- each f r ;; Ok (e ++ e') end.

(* ---------------- RUA ---------------- *)
(* hnb_test_rua_dt_handle hnb-test-rua.c:8-23, hnb_test_rua_cl_handle 25-40: the
   domain and the context identifier are not looked at *)
Definition rua_handle (M : msgdef) (rx : list N -> Dispatch.rx) (cb : rmsg -> outcome (list heff)) (h : hnb) (o : list N) : outcome hres :=
  let r := decode_msg M o in
  let got := contents (d_ies r) ++ d_lost r in
  if d_ok r then
    let x := rx (c_octs (field M (d_ies r) "id-RANAP-Message")) in
    do e <- each cb (x_calls x) ;;
    match x_freed x with
    | None => Fault UseAfterFree
    | Some f => Ok (mkHres 0 h e (got ++ x_alloc x) (f ++ free_ies M (d_ies r)))
    end
  else Ok (mkHres 0 h [] got []).
(* hnb_test_rua_rx hnb-test.c:508-566: the direction does not matter, the three
   alternatives have the same layout; the value of the PDU stays allocated *)
Definition rua_rx (E : henv) (h : hnb) (data : list N) : outcome hres :=
  match pdu_in T_RUA_RUA_PDU data with
  | None => Ok (mkHres (- EINVAL) h [] [] [])
  | Some (_, p, _, o) =>
      do r <- (if (p =? 4)%N then rua_handle M_RUA_ConnectionlessTransferIEs rx_cn_cl cl_handle_ranap h o
               else if (p =? 2)%N then rua_handle M_RUA_DirectTransferIEs rx_cn_co (dt_handle_ranap E h) h o
               else Ok (mkHres 0 h [] [] [])) ;;
      Ok (mkHres 0 (y_hnb r) (y_eff r) (VOcts o :: y_alloc r) (y_freed r))
  end.

(* ---------------- HNBAP ---------------- *)
(* hnb_test_rx_hnb_register_acc hnb-test.c:149-163: the result of the decoder is
   not looked at; rnc_id is a uint16_t *)
Definition rx_hnb_register_acc (h : hnb) (o : list N) : outcome hres :=
  let M := M_HNBAP_HNBRegisterAcceptIEs in
  let r := decode_msg M o in
  let rnc := (c_int (field M (d_ies r) "id-RNC-ID") mod 65536)%N in
  Ok (mkHres 0 (mkHnb rnc (h_ctx h) (h_cs h) (h_next h)) [HRegistered rnc]
        (contents (d_ies r) ++ d_lost r) (free_ies M (d_ies r))).
(* hnb_test_rx_ue_register_acc hnb-test.c:165-192; asn1bitstr_to_u24 asserts
   that there are three octets *)
Definition rx_ue_register_acc (h : hnb) (o : list N) : outcome hres :=
  let M := M_HNBAP_UERegisterAcceptIEs in
  let r := decode_msg M o in
  let got := contents (d_ies r) ++ d_lost r in
  if d_ok r then
    match field M (d_ies r) "id-UE-Identity" with
    | Some (VChoice 0 (VOcts i)) =>
        match field M (d_ies r) "id-Context-ID" with
        | Some (VBits b) =>
            if (List.length b =? 24)%nat then
              do t <- bcd_text i ;;
              Ok (mkHres 0 (mkHnb (h_rnc h) (from_bits 0 b) (h_cs h) (h_next h)) [HUe t (from_bits 0 b)] got (free_ies M (d_ies r)))
            else Fault Assertion
        | _ => Fault Assertion
        end
    | _ => Ok (mkHres (-1) h [] got [])
    end
  else Ok (mkHres (-1) h [] got []).
(* hnb_test_hnbap_rx hnb-test.c:472-504: the direction is only printed; -ENOSPC
   is -28 *)
Definition hnbap_rx (h : hnb) (data : list N) : outcome hres :=
  match pdu_in T_HNBAP_HNBAP_PDU data with
  | None => Ok (mkHres (- EINVAL) h [] [] [])
  | Some (_, p, _, o) =>
      do r <- (if (p =? 1)%N then rx_hnb_register_acc h o
               else if (p =? 3)%N then rx_ue_register_acc h o
               else Ok (mkHres (-28) h [] [] [])) ;;
      Ok (mkHres (y_rc r) (y_hnb r) (y_eff r) (VOcts o :: y_alloc r) (y_freed r))
  end.

(* ---------------- the socket ---------------- *)
(* what sctp_recvmsg returns: hnb-test.c:581-604.  A notification is one of the
   events subscribed to at 755-765.  The octets fit the buffer of 2048. *)
Inductive recv := RError (rc : Z) | REof | RNotification | RData (ppid : N) (data : list N).
(* hnb_read_cb hnb-test.c:568-632 *)
Definition read_cb (E : henv) (h : hnb) (r : recv) : outcome hres :=
  match r with
  | RError rc => Ok (mkHres rc h [HClose] [] [])
  | REof => Ok (mkHres (-1) h [HClose] [] [])
  | RNotification => Ok (mkHres 0 h [] [] [])
  | RData ppid data =>
      if (ppid =? PPI_HNBAP)%N then hnbap_rx h data
      else if (ppid =? PPI_RUA)%N then rua_rx E h data
      else Ok (mkHres 0 h [] [] [])
  end.

(* ---------------- VTY commands ---------------- *)
(* hnbap_generate_initiating_message and osmo_wqueue_enqueue; a NULL message is
   written to at hnb-test.c:142, 694, 722.  If the IEs cannot be encoded 672-675,
   706-709 go on with those encoded so far; they always can. *)
Definition send_hnbap (p : N) (M : msgdef) (s : ies) : outcome (list heff) :=
  match r_msg (finish hnbap 1 p 0 M s [] true) with
  | Some b => Ok [HSend PPI_HNBAP b]
  | None => Fault NullDeref
  end.
(* hnb_send_register_req hnb-test.c:650-697; asn1_u16_to_str stores in network
   order, asn1_u28_to_bitstring the low 28 bits *)
Definition send_register_req : outcome (list heff) :=
  let M := M_HNBAP_HNBRegisterRequestIEs in
  send_hnbap 1 M
    (put_ie M "id-PLMNidentity" (VOcts [0x09; 0xf1; 0x99]%N)
    (put_ie M "id-HNB-Identity" (VSeq [Some (VOcts [65; 84; 101; 115; 116; 72; 78; 66; 64]%N); None] [])
    (put_ie M "id-CellIdentity" (VBits (to_bits 28 0xadceaab))
    (put_ie M "id-RAC" (VOcts [0x42]%N)
    (put_ie M "id-SAC" (VOcts (store16be 0xabab))
    (put_ie M "id-LAC" (VOcts (store16be 0xc0fe)) (zero M))))))).
(* hnb_send_deregister_req hnb-test.c:699-725; HNBAP_CauseMisc_o_and_m_intervention = 2 *)
Definition send_deregister_req : outcome (list heff) :=
  let M := M_HNBAP_HNBDe_RegisterIEs in
  send_hnbap 2 M (put_ie M "id-Cause" (VChoice 3 (VEnum 2)) (zero M)).
(* hnb_test_ue_register_tx hnb-test.c:113-147: the encoder's result is asserted *)
Definition send_ue_register (imsi : list N) : outcome (list heff) :=
  let M := M_HNBAP_UERegisterRequestIEs in
  do o <- imsi_encode 16 16 imsi ;;
  let s := put_ie M "id-UE-Capabilities" (VSeq [Some (VEnum 3); Some (VEnum 1); None] [])
          (put_ie M "id-Registration-Cause" (VEnum 1)
          (put_ie M "id-UE-Identity" (VChoice 0 (VOcts o)) (zero M))) in
  match snd (add_ies M s) with
  | None => Fault Assertion
  | Some _ => send_hnbap 3 M s
  end.
(* ranap_reset hnb-test.c:797-822; cause transmissionNetwork 65 *)
Definition send_reset (is_ps : bool) : outcome (list heff) :=
  enqueue (rua_new_udt (r_msg (new_msg_reset (if is_ps then 1 else 0) (Some (Factory_spec.mkCause 2 65))))).
(* gen_initue_lu hnb-test.c:836-866: the IMSI is not used *)
Definition lu_request : list N :=
  [PDISC_MM; MT_MM_LOC_UPD_REQUEST; 0x70; 0x62; 0xf2; 0x30; 0xff; 0xf3; 0x57;
   0x08; 0x29; 0x26; 0x24; 0x10; 0x32; 0x54; 0x76; 0x98; 0x33; 0x03; 0x57; 0x18; 0xb2]%N.
(* hnb-test.c:836-866 *)
Definition gen_initue_lu (E : henv) (is_ps : bool) (conn_id : N) : option (list N) :=
  r_msg (new_msg_initial_ue (he_le E) conn_id is_ps (Factory_spec.mkGrnc [0x09; 0x01; 0x99]%N 23) lu_request).
(* chan hnb-test.c:868-900 *)
Definition open_chan (E : henv) (h : hnb) (is_ps : bool) : outcome (hnb * list heff) :=
  let id := h_next h in
  do e <- enqueue (rua_new_conn is_ps id (gen_initue_lu E is_ps id)) ;;
  Ok (mkHnb (h_rnc h) (h_ctx h) (if is_ps then h_cs h else Some (mkChan false id)) ((id + 1) mod 65536)%N, e).

(* one event of the select loop: a command or something on the socket *)
(* DEFUN hnb-test.c:770-900, hnb_read_cb 568-632 *)
Inductive hop :=
| HRegister | HDeregister | HUeRegister (imsi : list N) | HReset (is_ps : bool) | HChannel (is_ps : bool) | HRecv (r : recv).
(* hnb-test.c:770-900, 568-632 *)
Definition hstep (E : henv) (h : hnb) (o : hop) : outcome (hnb * list heff) :=
  match o with
  | HRegister => do e <- send_register_req ;; Ok (h, e)
  | HDeregister => do e <- send_deregister_req ;; Ok (h, e)
  | HUeRegister i => do e <- send_ue_register i ;; Ok (h, e)
  | HReset p => do e <- send_reset p ;; Ok (h, e)
  | HChannel p => open_chan E h p
  | HRecv r => do y <- read_cb E h r ;; Ok (y_hnb y, y_eff y)
  end.
(* the select loop hnb-test.c:1010-1014 *)
Fixpoint hrun (E : henv) (h : hnb) (l : list hop) : outcome (hnb * list heff) :=
  match l with
  | [] => Ok (h, [])
  | o :: r => do p <- hstep E h o ;; do q <- hrun E (fst p) r ;; Ok (fst q, snd p ++ snd q)
  end.
