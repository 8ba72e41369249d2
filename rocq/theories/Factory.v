(* Model of the RANAP message factory, /repo/src/ranap_msg_factory.c, and of the
   PDU generators of /repo/src/{ranap,rua,hnbap,sabp}_common.c.
   Simplifications: memory allocation does not fail (see Memory.v
   for when it does); XER printing (off by
   default) is left out; structures that hang together and are released by one
   ASN_STRUCT_FREE count as one block. *)
From Verif Require Import Base Aper Container RanapTypes RuaTypes HnbapTypes SabpTypes RanapTab Helpers Factory_spec.
From Coq Require Import String List.
Local Open Scope list_scope.

(* ---------------- PDU generators ---------------- *)
(* PDU type and tail room of the transmit buffer: ranap_common.c:293-296,
   rua_common.c:103-106, hnbap_common.c:113-116, sabp_common.c:76-79 *)
Record proto := mkProto { p_pdu : ty; p_cap : N }.
(* ranap_common.c:293-317 *)
Definition ranap : proto := mkProto T_RANAP_RANAP_PDU 1024.
(* rua_common.c:103-127 *)
Definition rua : proto := mkProto T_RUA_RUA_PDU 1024.
(* hnbap_common.c:113-137 *)
Definition hnbap : proto := mkProto T_HNBAP_HNBAP_PDU 1024.
(* sabp_common.c:76-100 *)
Definition sabp : proto := mkProto T_SABP_SABP_PDU 1024.
(* the PDU structure: alternative [d] (1 = initiatingMessage, ...) *)
(* ranap_common.c:319-423, rua_common.c:130-205, hnbap_common.c:139-217, sabp_common.c:102-179 *)
Definition pdu_val (d p : N) (crit : Z) (o : list N) : val :=
  VChoice (N.to_nat d - 1) (VSeq [Some (VInt (Z.of_N p)); Some (VEnum crit); Some (VOcts o)] []).
(* _ranap_gen_msg ranap_common.c:298-317 (and the same function of the other
   three protocols): if the PDU cannot be encoded, or not within the buffer,
   rval.encoded is -1, which is only logged; msgb_put(msg, -1/8) adds nothing,
   and the empty message is returned. *)
Definition gen_msg (P : proto) (pdu : val) : list N :=
  match encode (p_pdu P) pdu with
  | Some b => if (N.of_nat (length b) <=? p_cap P)%N then b else []
  | None => []
  end.
(* ranap_generate_initiating_message ranap_common.c:319-342, successful 344-369,
   unsuccessful 371-396, outcome 398-423; rua_common.c:130-205,
   hnbap_common.c:139-217, sabp_common.c:102-179.  None is NULL. *)
Definition generate (P : proto) (d p : N) (crit : Z) (td : ty) (out : val) : option (list N) :=
  match encode td out with
  | None => None
  | Some o => Some (gen_msg P (pdu_val d p crit o))
  end.

(* ---------------- allocations ---------------- *)
(* ASN_STRUCT_FREE_CONTENTS_ONLY, e.g. ranap_msg_factory.c:85 *)
Definition rel (t : list ev) : list ev := flat_map (fun e => match e with Al l => [Fr l] | Fr _ => [] end) t.
(* what a factory function returns and the allocations and releases it makes *)
(* vocabulary: result of a function of ranap_msg_factory.c:43-1090 *)
Record made := mkMade { r_msg : option (list N); r_ev : list ev }.

(* ---------------- filling the IE structure ---------------- *)
(* the value of a structure that was zeroed by memset: PR_NOTHING of a CHOICE is
   no value at all, OPTIONAL components are NULL pointers *)
(* what memset leaves, e.g. ranap_msg_factory.c:59 *)
Fixpoint zeroed (t : ty) : val :=
  match t with
  | TNull => VNull
  | TBool => VBool false
  | TInt _ => VInt 0
  | TEnum _ _ _ => VEnum 0
  | TBits _ => VBits []
  | TOcts _ => VOcts []
  | TSeq _ root adds =>
      VSeq (map (fun m => match m with (o, t) => if o : bool then None else Some (zeroed t) end) root) (map (fun _ => None) adds)
  | TSeqOf _ _ => VList []
  | TChoice _ _ _ => VNull
  end.
(* memset(&ies, 0, sizeof(ies)) *)
(* e.g. ranap_msg_factory.c:59 *)
Definition zero (m : msgdef) : ies := mkIes 0 (map (fun r => Some (zeroed (r_ty r))) (m_rows m)).
(* the member of the structure, e.g. ranap_msg_factory.c:60 *)
Fixpoint index_ie (ie : string) (rows : list row) : nat :=
  match rows with [] => 0 | r :: rs => if String.eqb (r_ie r) ie then 0 else S (index_ie ie rs) end.
(* ies.field = v *)
(* e.g. ranap_msg_factory.c:60 *)
Definition put_ie (m : msgdef) (ie : string) (v : val) (s : ies) : ies :=
  mkIes (i_mask s) (set_nth (index_ie ie (m_rows m)) (Some v) (i_fields s)).
(* the macro MESSAGE_PREFIX_IE_PRESENT *)
(* asn1tostruct.py:195, e.g. at ranap_msg_factory.c:161 *)
Definition macro (m : msgdef) (ie : string) : N :=
  match find (fun r => String.eqb (r_ie r) ie) (m_rows m) with Some r => flag m r | None => 0%N end.
(* ies.presenceMask = f; ies.presenceMask |= f *)
(* e.g. ranap_msg_factory.c:161 *)
Definition set_mask (f : N) (s : ies) : ies := mkIes f (i_fields s).
(* e.g. ranap_msg_factory.c:145-157 *)
Definition or_mask (f : N) (s : ies) : ies := mkIes (N.land (N.lor (i_mask s) f) 65535) (i_fields s).
(* e.g. ranap_msg_factory.c:145-166 *)
Definition ifs {A} (o : option A) (f : A -> ies -> ies) (s : ies) : ies := match o with Some a => f a s | None => s end.

(* the generated xxx_encode_yyyies, asn1tostruct.py:491-538, with the IEs it
   attached to the list before it returned 0 (Some) or -1 (None); an IE that
   cannot be encoded is released by xxx_new_ie itself *)
Fixpoint add_rows (m : msgdef) (s : ies) (rows : list row) (fields : list (option val)) (k : nat) : list ev * option (list val) :=
  match rows, fields with
  | [], _ => ([], Some [])
  | r :: rs, f :: fs =>
      if wanted m s r then
        match f with
        | Some v =>
            match new_ie r v with
            | None => ([], None)
            | Some ie => let '(t, l) := add_rows m s rs fs (S k) in (Al (m_key m, k) :: t, option_map (cons ie) l)
            end
        | None => ([], None)
        end
      else add_rows m s rs fs (S k)
  | _ :: _, [] => ([], None)
  end.
(* asn1tostruct.py:491-538 *)
Definition add_ies (m : msgdef) (s : ies) : list ev * option (list val) := add_rows m s (m_rows m) (i_fields s) 0.
(* the structure `out', e.g. ranap_msg_factory.c:72-88 *)
Definition list_val (l : list val) : val := VSeq [Some (VList l)] [].

(* The common end of the factory functions: ies -> out -> msg.
   [mid]: what is released between the two; [keep_out]: `out' is not released if
   the IEs cannot be encoded (only ranap_new_msg_iu_rel_req does release it). *)
(* e.g. ranap_msg_factory.c:72-88 *)
Definition finish (P : proto) (d p : N) (crit : Z) (m : msgdef) (s : ies) (mid : list ev) (keep_out : bool) : made :=
  let '(t, r) := add_ies m s in
  match r with
  | None => mkMade None (t ++ mid ++ (if keep_out then [] else rel t))
  | Some l =>
      match generate P d p crit (m_cont m) (list_val l) with
      | None => mkMade None (t ++ mid ++ rel t)
      | Some o => mkMade (Some o) (t ++ mid ++ [Al ("pdu"%string, 0); Al msg_lab; Fr ("pdu"%string, 0)] ++ rel t)
      end
  end.

(* ---------------- message factory ---------------- *)
(* e.g. ranap_msg_factory.c:60 *)
Definition dom_val (d : Z) : val := VEnum d.
(* e.g. ranap_msg_factory.c:520-581 *)
Definition is_ps_val (is_ps : bool) : val := VEnum (if is_ps then 1 else 0).
Local Open Scope string_scope.
Local Open Scope list_scope.

(* ranap_new_msg_reset2 50-88 (ranap_new_msg_reset 43-47 passes NULL for rnc_id) *)
Definition new_msg_reset2 (domain : Z) (c : option cause) (rnc : option global_rnc) : made :=
  let M := M_RANAP_ResetIEs in
  finish ranap 1 9 0 M
    (ifs rnc (fun g s => put_ie M "id-GlobalRNC-ID" (grnc_val g) (set_mask (macro M_RANAP_ResetIEs "id-GlobalRNC-ID") s))
    (ifs c (fun c s => put_ie M "id-Cause" (cause_val c) s)
    (put_ie M "id-CN-DomainIndicator" (dom_val domain) (zero M)))) [] true.
(* ranap_msg_factory.c:43-47 *)
Definition new_msg_reset (domain : Z) (c : option cause) : made := new_msg_reset2 domain c None.
(* ranap_new_msg_reset_ack 91-130 *)
Definition new_msg_reset_ack (domain : Z) (rnc : option global_rnc) : made :=
  let M := M_RANAP_ResetAcknowledgeIEs in
  finish ranap 2 9 0 M
    (ifs rnc (fun g s => put_ie M "id-GlobalRNC-ID" (grnc_val g) (set_mask (macro M_RANAP_ResetAcknowledgeIEs "id-GlobalRNC-ID") s))
    (put_ie M "id-CN-DomainIndicator" (dom_val domain) (zero M))) [] true.
(* ranap_new_msg_error_ind 133-184; [cd] is the given CriticalityDiagnostics;
   line 161 assigns the mask, and with the macro of another message *)
Definition new_msg_error_ind (c : option cause) (cd : option val) (domain : option Z) (rnc : option global_rnc) : made :=
  let M := M_RANAP_ErrorIndicationIEs in
  finish ranap 1 22 1 M
    (ifs rnc (fun g s => put_ie M "id-GlobalRNC-ID" (grnc_val g) (set_mask (macro M_RANAP_ResetAcknowledgeIEs "id-GlobalRNC-ID") s))
    (ifs domain (fun d s => put_ie M "id-CN-DomainIndicator" (dom_val d) (or_mask (macro M "id-CN-DomainIndicator") s))
    (ifs cd (fun v s => put_ie M "id-CriticalityDiagnostics" v (or_mask (macro M "id-CriticalityDiagnostics") s))
    (ifs c (fun c s => put_ie M "id-Cause" (cause_val c) (or_mask (macro M "id-Cause") s))
    (zero M))))) [] true.
(* ranap_new_msg_initial_ue 187-232; [le]: the host is little-endian; buf0 is
   0x2342 in host order; asn1_u24_to_bitstring keeps the low 24 bits *)
Definition buf0 (le : bool) : list N := if le then [0x42; 0x23]%N else [0x23; 0x42]%N.
(* ranap_msg_factory.c:187-232 ranap_new_msg_initial_ue *)
Definition new_msg_initial_ue (le : bool) (conn_id : N) (is_ps : bool) (g : global_rnc) (nas : list N) : made :=
  let M := M_RANAP_InitialUE_MessageIEs in
  let o l := Some (VOcts l) in
  finish ranap 1 19 1 M
    (put_ie M "id-GlobalRNC-ID" (grnc_val g)
    (put_ie M "id-IuSigConId" (VBits (to_bits 24 conn_id))
    (put_ie M "id-NAS-PDU" (VOcts nas)
    (put_ie M "id-SAI" (VSeq [o (g_plmn g); o (buf0 le); o (buf0 le); None] [])
    (put_ie M "id-LAI" (VSeq [o (g_plmn g); o (buf0 le); None] [])
    (put_ie M "id-CN-DomainIndicator" (is_ps_val is_ps) (zero M))))))) [] true.
(* ranap_new_msg_dt 236-274; RANAP_SAPI_sapi_0 = 0, sapi_3 = 1 *)
Definition new_msg_dt (sapi : N) (nas : list N) : made :=
  let M := M_RANAP_DirectTransferIEs in
  finish ranap 1 20 1 M
    (put_ie M "id-NAS-PDU" (VOcts nas)
    (put_ie M "id-SAPI" (VEnum (if (sapi =? 3)%N then 1 else 0))
    (set_mask (macro M "id-SAPI") (zero M)))) [] true.
(* the loops 294-318 and 324-347 of ranap_new_msg_sec_mod_cmd2: the algorithms
   allocated so far and whether the loop ran to its end; [alg i] is the value
   for bit i, if it is supported *)
Fixpoint alg_loop (alg : nat -> option Z) (mask : N) (bits : list nat) : list Z * bool :=
  match bits with
  | [] => ([], true)
  | i :: r =>
      if N.testbit_nat mask i then
        match alg i with
        | None => ([], false)
        | Some a => let '(l, ok) := alg_loop alg mask r in (a :: l, ok)
        end
      else alg_loop alg mask r
  end.
(* ranap_msg_factory.c:294-318 *)
Definition uia (i : nat) : option Z := match i with 1 => Some 0%Z | 2 => Some 1%Z | _ => None end.
(* ranap_msg_factory.c:324-347 *)
Definition uea (i : nat) : option Z := match i with 1 => Some 1%Z | 2 => Some 2%Z | _ => None end.
(* ranap_msg_factory.c:294-347, the bounds of the loops *)
Definition bits8 : list nat := [0; 1; 2; 3; 4; 5; 6; 7].
(* the allocations made at ranap_msg_factory.c:294-347 *)
Definition alg_labs (n : string) (l : list Z) : list lab := map (fun k => (n, k)) (seq 0 (length l)).
(* RANAP_IntegrityProtectionInformation_t, RANAP_EncryptionInformation_t *)
(* ranap_msg_factory.c:318-348 *)
Definition prot_info (algs : list Z) (key : list N) : val :=
  VSeq [Some (VList (map VInt algs)); Some (VBits (octets_bits key)); None] [].
(* ranap_new_msg_sec_mod_cmd2 283-372 *)
Definition new_msg_sec_mod_cmd2 (ik : list N) (ck : option (list N)) (status : Z) (uia_mask uea_mask : N) : made :=
  let M := M_RANAP_SecurityModeCommandIEs in
  let '(ia, ok) := alg_loop uia uia_mask bits8 in
  let a1 := map Al (alg_labs "uia" ia) in
  if negb ok then mkMade None a1 (* 307: return without releasing *)
  else
    let a2 := a1 ++ [Al ("ik", 0)] in
    let fin s a :=
      let m := finish ranap 1 6 0 M (put_ie M "id-KeyStatus" (VEnum status) s) (rel a) true in
      mkMade (r_msg m) (a ++ r_ev m) in
    let s := put_ie M "id-IntegrityProtectionInformation" (prot_info ia ik) (zero M) in
    match ck with
    | None => fin s a2
    | Some ck =>
        let '(ea, ok) := alg_loop uea uea_mask bits8 in
        let a3 := a2 ++ map Al (alg_labs "uea" ea) in
        if negb ok then mkMade None a3 (* 334-335: asn_set_empty does not release the elements, as no free function is set *)
        else
          fin (put_ie M "id-EncryptionInformation" (prot_info ea ck) (set_mask (macro M "id-EncryptionInformation") s))
              (a3 ++ [Al ("ck", 0)])
    end.
(* ranap_new_msg_sec_mod_cmd 373-376 *)
Definition new_msg_sec_mod_cmd (ik : list N) (ck : option (list N)) (status : Z) : made :=
  new_msg_sec_mod_cmd2 ik ck status 6 6.
(* ranap_new_msg_sec_mod_compl 379-412 *)
Definition new_msg_sec_mod_compl (ialg ealg : Z) : made :=
  let M := M_RANAP_SecurityModeCompleteIEs in
  finish ranap 2 6 0 M
    (put_ie M "id-ChosenEncryptionAlgorithm" (VInt ealg)
    (put_ie M "id-ChosenIntegrityProtectionAlgorithm" (VInt ialg)
    (set_mask (macro M "id-ChosenEncryptionAlgorithm") (zero M)))) [] true.
(* ranap_new_msg_common_id 415-455 *)
Definition imsi_val (octets : list N) : val := VChoice 0 (VOcts octets).
(* ranap_msg_factory.c:415-455 ranap_new_msg_common_id *)
Definition new_msg_common_id (imsi : option (list N)) : outcome made :=
  let M := M_RANAP_CommonID_IEs in
  match imsi with
  | None => Ok (finish ranap 1 15 1 M (zero M) [] true)
  | Some s =>
      do o <- imsi_encode 16 16 s ;;
      let m := finish ranap 1 15 1 M (put_ie M "id-PermanentNAS-UE-ID" (imsi_val o) (zero M)) [Fr ("imsi", 0)] true in
      Ok (mkMade (r_msg m) (Al ("imsi", 0) :: r_ev m))
  end.
(* ranap_new_msg_iu_rel_cmd 458-487 *)
Definition new_msg_iu_rel_cmd (c : cause) : made :=
  let M := M_RANAP_Iu_ReleaseCommandIEs in
  finish ranap 1 1 0 M (put_ie M "id-Cause" (cause_val c) (zero M)) [] true.
(* ranap_new_msg_iu_rel_compl 490-517 *)
Definition new_msg_iu_rel_compl : made :=
  let M := M_RANAP_Iu_ReleaseCompleteIEs in finish ranap 2 1 0 M (zero M) [] true.
(* ranap_new_msg_paging_cmd 520-581; asn1_u32_to_str stores in network order *)
Definition new_msg_paging_cmd (imsi : list N) (tmsi : option N) (is_ps : bool) (pcause : N) : outcome made :=
  let M := M_RANAP_PagingIEs in
  do o <- imsi_encode 16 16 imsi ;;
  let tl := match tmsi with Some _ => [("tmsi", 0)] | None => [] end in
  let s :=
    (if (pcause =? 0)%N then (fun s => s)
     else fun s => put_ie M "id-PagingCause" (VEnum (Z.of_N pcause)) (or_mask (macro M "id-PagingCause") s))
    (ifs tmsi (fun t s => put_ie M "id-TemporaryUE-ID" (VChoice (if is_ps then 1 else 0) (VOcts (store32be t)))
                            (or_mask (macro M "id-TemporaryUE-ID") s))
    (put_ie M "id-PermanentNAS-UE-ID" (imsi_val o)
    (put_ie M "id-CN-DomainIndicator" (is_ps_val is_ps) (zero M)))) in
  let m := finish ranap 1 14 1 M s (Fr ("imsi", 0) :: map Fr tl) true in
  Ok (mkMade (r_msg m) (Al ("imsi", 0) :: map Al tl ++ r_ev m)).

(* ---------------- RAB assignment ---------------- *)
(* ranap_msg_factory.c:583-789, the members of the structures built there *)
Definition some_int (z : Z) : option val := Some (VInt z).
(* ranap_msg_factory.c:583-789, the members of the structures built there *)
Definition some_enum (z : Z) : option val := Some (VEnum z).
(* new_sdu_error_ratio 583-591, residualBitErrorRatio *)
Definition ratio (m e : Z) : val := VSeq [some_int m; some_int e; None] [].
(* new_format_info_pars 594-600 *)
Definition fmti (size : Z) : val := VSeq [some_int size; None; None] [].
(* new_sdu_par_item 610-661 *)
Definition sdu_voice0 : val := VSeq [Some (ratio 1 5); Some (ratio 1 6); some_enum 0; Some (VList [fmti 81; fmti 39]); None] [].
(* ranap_msg_factory.c:610-661 *)
Definition sdu_voice1 : val := VSeq [None; Some (ratio 1 3); some_enum 2; Some (VList [fmti 103; fmti 0]); None] [].
(* ranap_msg_factory.c:610-661 *)
Definition sdu_voice2 : val := VSeq [None; Some (ratio 5 3); some_enum 2; Some (VList [fmti 60; fmti 0]); None] [].
(* ranap_msg_factory.c:610-661 *)
Definition sdu_data : val := VSeq [Some (ratio 1 4); Some (ratio 1 5); some_enum 1; None; None] [].
(* new_alloc_ret_prio 663-687 *)
Definition alloc_prio (level : Z) (capability vulnerability queueing : bool) : val :=
  let b x := some_enum (if x : bool then 1 else 0) in
  VSeq [some_int level; b capability; b vulnerability; b queueing; None] [].
(* new_rab_par_voice 690-718 *)
Definition rab_par_voice (guaranteed max : Z) : val :=
  VSeq [some_enum 0; some_enum 0; Some (VList [VInt max]); Some (VList [VInt guaranteed]); some_enum 0; some_int 244;
        Some (VList [sdu_voice0; sdu_voice1; sdu_voice2]); some_int 80; None; Some (alloc_prio 15 false true false);
        some_enum 0; None; None] [].
(* new_rab_nas_sync_ind 720-726: the upper four bits of (val / 10) << 4 *)
Definition nas_sync_ind (v : N) : val := VBits (to_bits 4 (v / 10)).
(* new_rab_par_data 728-763 *)
Definition ext_mbr : list N := match encode T_RANAP_RAB_Parameter_ExtendedMaxBitrateList (VList [VInt 42000000]) with Some o => o | None => [] end.
(* ranap_msg_factory.c:728-763 new_rab_par_data *)
Definition rab_par_data (dl ul : Z) : val :=
  VSeq [some_enum 3; some_enum 3; Some (VList [VInt dl; VInt ul]); None; some_enum 0; some_int 8000;
        Some (VList [sdu_data]); None; None; Some (alloc_prio 15 false false false); None; None;
        Some (VList [VSeq [some_int 177; some_enum 1; Some (VOcts ext_mbr)] []])] [].
(* new_upi 765-778: 16 bits, network order *)
Definition upi (mode : Z) (versions : N) : val := VSeq [some_enum mode; Some (VBits (octets_bits (store16be versions))); None] [].
(* assign_new_ra_id 781-789 *)
Definition rab_id_val (rab_id : N) : val := VBits (octets_bits [rab_id]).
(* RANAP_TransportLayerInformation_t of iu_helpers.c:247-296; a NULL pointer is
   an absent component *)
Definition tli_val (t : option transp_info) : option val :=
  option_map (fun t => VSeq [Some (VBits (octets_bits (tli_addr t)));
    Some (match ta_present (tli_assoc t) with
          | PR_gTP_TEI => VChoice 0 (VOcts (ta_octets (tli_assoc t)))
          | PR_bindingID => VChoice 1 (VOcts (ta_octets (tli_assoc t)))
          | PR_NOTHING => VNull end); None] []) t.
(* ranap_new_ie_pair ranap_common.c:457-496; the two values *)
Definition new_ie_pair (id : Z) (crit1 : Z) (t1 : ty) (v1 : val) (crit2 : Z) (t2 : ty) (v2 : val) : option val :=
  match encode t1 v1, encode t2 v2 with
  | Some o1, Some o2 => Some (VSeq [some_int id; some_enum crit1; Some (VOcts o1); some_enum crit2; Some (VOcts o2)] [])
  | _, _ => None
  end.
(* 830-864 and 908-946: pair -> list -> ies -> msg.  ASN_SEQUENCE_ADD of a NULL
   pair adds nothing. *)
Definition rab_assign (first second : val) : made :=
  let M := M_RANAP_RAB_AssignmentRequestIEs in
  let pair := new_ie_pair 53 0 T_RANAP_RAB_SetupOrModifyItemFirst first 1 T_RANAP_RAB_SetupOrModifyItemSecond second in
  let lst := VList [VList (match pair with Some v => [v] | None => [] end)] in
  let pre := Al ("first", 0) :: Al ("second", 0) :: (match pair with Some _ => [Al ("pair", 0)] | None => [] end) ++
             [Fr ("first", 0); Fr ("second", 0); Al ("container", 0)] in
  let post := (match pair with Some _ => [Fr ("pair", 0)] | None => [] end) ++ [Fr ("container", 0)] in
  let m := finish ranap 1 0 0 M
    (put_ie M "id-RAB-SetupOrModifyList" lst (set_mask (macro M "id-RAB-SetupOrModifyList") (zero M))) post true in
  mkMade (r_msg m) (pre ++ r_ev m).
(* ranap_new_msg_rab_assign_voice 796-865.  htonl stores the number rtp_ip in
   network order, whatever the host's byte order. *)
Definition new_msg_rab_assign_voice (rab_id rtp_ip rtp_port : N) (x213 : bool) : made :=
  let addr := mkSockaddr AF_INET rtp_port (store32be rtp_ip) (repeat 0%N 16) in
  rab_assign
    (VSeq [Some (rab_id_val rab_id); Some (nas_sync_ind 60); Some (rab_par_voice 6700 12200); Some (upi 1 1);
           tli_val (new_transp_info_rtp addr x213); None; None] [])
    (VSeq [None; None; None; None; None; None; None] []).
(* ranap_new_msg_rab_assign_data 869-947 *)
Definition new_msg_rab_assign_data (rab_id gtp_ip gtp_tei : N) (x213 : bool) : made :=
  let addr := mkSockaddr AF_INET 0 (store32be gtp_ip) (repeat 0%N 16) in
  rab_assign
    (VSeq [Some (rab_id_val rab_id); None; Some (rab_par_data 1600000 800000); Some (upi 0 1);
           tli_val (new_transp_info_gtp addr gtp_tei x213); None; None] [])
    (VSeq [Some (VList [VEnum 3]); some_enum 1; some_int 0; some_int 0; None; None; None] []).

(* ranap_new_msg_iu_rel_req 950-977: releases `out' also on failure *)
Definition new_msg_iu_rel_req (c : cause) : made :=
  let M := M_RANAP_Iu_ReleaseRequestIEs in
  finish ranap 1 11 1 M (put_ie M "id-Cause" (cause_val c) (zero M)) [] false.
(* ranap_new_msg_rab_rel_req 980-1021 *)
Definition new_msg_rab_rel_req (rab_id : N) (c : cause) : made :=
  let I := M_RANAP_RAB_ReleaseItemIEs in
  let M := M_RANAP_RAB_ReleaseRequestIEs in
  let '(t, r) := add_ies I (put_ie I "id-RAB-ReleaseItem" (VSeq [Some (rab_id_val rab_id); Some (cause_val c); None] []) (zero I)) in
  match r with
  | None => mkMade None (Al ("rab_id", 0) :: t)
  | Some l =>
      let m := finish ranap 1 10 1 M (put_ie M "id-RAB-ReleaseList" (list_val l) (zero M)) (rel t) true in
      mkMade (r_msg m) (Al ("rab_id", 0) :: t ++ Fr ("rab_id", 0) :: r_ev m)
  end.
(* ranap_new_msg_reset_resource 1024-1090; the two OSMO_ASSERTs are on
   arguments that are given here; line 1064 uses the macro of another message *)
Definition new_msg_reset_resource (domain : Z) (c : cause) (ids : list N) (rnc : option global_rnc) : made :=
  let I := M_RANAP_ResetResourceItemIEs in
  let M := M_RANAP_ResetResourceIEs in
  match ids with
  | [id] =>
      let '(t, r) := add_ies I (put_ie I "id-IuSigConIdItem" (VSeq [Some (VBits (to_bits 24 id)); None] []) (zero I)) in
      match r with
      | None => mkMade None t
      | Some l =>
          let m := finish ranap 1 27 0 M
            (ifs rnc (fun g s => put_ie M "id-GlobalRNC-ID" (grnc_val g) (set_mask (macro M_RANAP_ResetIEs "id-GlobalRNC-ID") s))
            (put_ie M "id-IuSigConIdList" (list_val l)
            (put_ie M "id-Cause" (cause_val c)
            (put_ie M "id-CN-DomainIndicator" (dom_val domain) (zero M))))) (rel t) true in
          mkMade (r_msg m) (t ++ r_ev m)
      end
  | _ => mkMade None []
  end.

(* ---------------- all calls ---------------- *)
(* include/osmocom/ranap/ranap_msg_factory.h *)
(* the functions of ranap_msg_factory.c:43-1090 *)
Inductive call :=
| CallReset (domain : Z) (c : option cause) (rnc : option global_rnc)
| CallResetAck (domain : Z) (rnc : option global_rnc)
| CallErrorInd (c : option cause) (cd : option val) (domain : option Z) (rnc : option global_rnc)
| CallInitialUe (le : bool) (conn_id : N) (is_ps : bool) (g : global_rnc) (nas : list N)
| CallDt (sapi : N) (nas : list N)
| CallSecModCmd (ik : list N) (ck : option (list N)) (status : Z) (uia_mask uea_mask : N)
| CallSecModCompl (ialg ealg : Z)
| CallCommonId (imsi : option (list N))
| CallIuRelCmd (c : cause)
| CallIuRelCompl
| CallPaging (imsi : list N) (tmsi : option N) (is_ps : bool) (pcause : N)
| CallRabVoice (rab_id rtp_ip rtp_port : N) (x213 : bool)
| CallRabData (rab_id gtp_ip gtp_tei : N) (x213 : bool)
| CallIuRelReq (c : cause)
| CallRabRelReq (rab_id : N) (c : cause)
| CallResetResource (domain : Z) (c : cause) (ids : list N) (rnc : option global_rnc).
(* the functions of ranap_msg_factory.c:43-1090 *)
Definition do_call (k : call) : outcome made :=
  match k with
  | CallReset d c r => Ok (new_msg_reset2 d c r)
  | CallResetAck d r => Ok (new_msg_reset_ack d r)
  | CallErrorInd c cd d r => Ok (new_msg_error_ind c cd d r)
  | CallInitialUe le i p g n => Ok (new_msg_initial_ue le i p g n)
  | CallDt s n => Ok (new_msg_dt s n)
  | CallSecModCmd ik ck st a b => Ok (new_msg_sec_mod_cmd2 ik ck st a b)
  | CallSecModCompl a b => Ok (new_msg_sec_mod_compl a b)
  | CallCommonId i => new_msg_common_id i
  | CallIuRelCmd c => Ok (new_msg_iu_rel_cmd c)
  | CallIuRelCompl => Ok new_msg_iu_rel_compl
  | CallPaging i t p c => new_msg_paging_cmd i t p c
  | CallRabVoice r i p x => Ok (new_msg_rab_assign_voice r i p x)
  | CallRabData r i t x => Ok (new_msg_rab_assign_data r i t x)
  | CallIuRelReq c => Ok (new_msg_iu_rel_req c)
  | CallRabRelReq r c => Ok (new_msg_rab_rel_req r c)
  | CallResetResource d c i r => Ok (new_msg_reset_resource d c i r)
  end.
