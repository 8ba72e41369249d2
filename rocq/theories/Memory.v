(* The message factories when memory runs out: ranap_msg_factory.c,
   rua_msg_factory.c and what they call, with an oracle that may deny any request
   for memory.  The values built are those of Factory.v and RuaFactory.v; what is
   released is left out, and so is printing as XER.
   Of the libraries (not in /repo) it is assumed that ANY_fromType_aper returns -1
   without memory, and 0 and no octets for a NULL structure; that asn_set_add, behind
   ASN_SEQUENCE_ADD, enlarges the array to 4, 8, 16, ... pointers when it is full,
   and returns -1 and changes nothing without memory, for a NULL list or a NULL
   element; that BIT_STRING_fromBuf and OCTET_STRING_fromBuf return -1 and change
   nothing without memory or for a NULL string; and that encoding into a given
   buffer needs no memory. *)
From Verif Require Import Base Aper Container Helpers RanapTypes RuaTypes RanapTab RuaTab Factory_spec Factory RuaFactory Memory_spec.
From Coq Require Import String List.
Local Open Scope list_scope.
Local Open Scope string_scope.
Local Open Scope list_scope.

(* number of requests so far, and the denied ones *)
(* vocabulary: the state of the allocator behind CALLOC, ranap_msg_factory.c:37 *)
Record mst := mkMst { q_next : nat; q_denied : list akind }.
(* vocabulary: before the first request of a function of ranap_msg_factory.c:43-1090 *)
Definition m0 : mst := mkMst 0 [].
(* vocabulary: a piece of ranap_msg_factory.c that may ask for memory and may crash *)
Definition mem (A : Type) := mst -> outcome A * mst.
(* vocabulary: a piece that asks for nothing *)
Definition mret {A} (a : A) : mem A := fun s => (Ok a, s).
(* vocabulary: a crash, e.g. at ranap_msg_factory.c:38 *)
Definition mcrash {A} : mem A := fun s => (Fault NullDeref, s).
(* vocabulary: sequential composition of C statements *)
Definition mbind {A B} (m : mem A) (k : A -> mem B) : mem B :=
  fun s => match m s with (Ok a, s') => k a s' | (Fault f, s') => (Fault f, s') end.
Notation "'let?' x := e 'in' k" := (mbind e (fun x => k)) (at level 60, x pattern, e at level 59, k at level 60, right associativity).
(* vocabulary: a piece of other models that may crash, e.g. iu_helpers.c:67-91 *)
Definition mlift {A} (o : outcome A) : mem A := fun s => (o, s).

(* ---------------- lists ---------------- *)
(* A_SEQUENCE_OF: size of the array and what is in it *)
(* vocabulary: a list filled by ASN_SEQUENCE_ADD, e.g. ranap_msg_factory.c:314 *)
Record cells (A : Type) := mkCells { ce_size : nat; ce_items : list A }.
Arguments mkCells {A}. Arguments ce_size {A}. Arguments ce_items {A}.
(* vocabulary: a zeroed list, e.g. ranap_msg_factory.c:290 *)
Definition no_cells {A} : cells A := mkCells 0 [].

Section Deny.
Context (deny : oracle).
(* CALLOC, MALLOC: whether the pointer is not NULL *)
(* e.g. ranap_msg_factory.c:37, ranap_common.c:433 *)
Definition ask (k : akind) : mem bool := fun s =>
  if deny (q_next s) k then (Ok false, mkMst (S (q_next s)) (k :: q_denied s))
  else (Ok true, mkMst (S (q_next s)) (q_denied s)).
(* CALLOC followed by a write through the pointer *)
(* e.g. ranap_msg_factory.c:37-38, 585-587, 667-669 *)
Definition temp : mem unit := let? ok := ask ATemp in if ok : bool then mret tt else mcrash.

(* ASN_SEQUENCE_ADD; its result is not looked at *)
(* e.g. ranap_msg_factory.c:314, 342, 624, 844-845; asn1tostruct.py:516, 533 *)
Definition add {A} (l : cells A) (x : A) : mem (cells A) :=
  if (List.length (ce_items l) =? ce_size l)%nat then
    let? ok := ask ACell in
    if ok : bool then mret (mkCells (if (ce_size l =? 0)%nat then 4 else 2 * ce_size l)%nat (ce_items l ++ [x]))
    else mret l
  else mret (mkCells (ce_size l) (ce_items l ++ [x])).
(* with an element that may be NULL *)
(* ranap_msg_factory.c:844-845, 925-927 *)
Definition add_opt {A} (l : cells A) (x : option A) : mem (cells A) :=
  match x with Some x => add l x | None => mret l end.

(* ---------------- IEs and messages ---------------- *)
(* ranap_new_ie ranap_common.c:426-455, rua_new_ie rua_common.c:207-237 *)
Definition new_ie_m (r : row) (v : val) : mem (option val) :=
  let? ok := ask AIe in
  if ok : bool then
    let? ok := ask AValue in
    if ok : bool then mret (new_ie r v) else mret None
  else mret None.
(* the generated encoders, asn1tostruct.py:485-538 *)
Fixpoint add_rows_m (m : msgdef) (s : ies) (rows : list row) (fields : list (option val)) (l : cells val) : mem (option (cells val)) :=
  match rows, fields with
  | [], _ => mret (Some l)
  | r :: rs, f :: fs =>
      if wanted m s r then
        match f with
        | Some v =>
            let? ie := new_ie_m r v in
            match ie with
            | None => mret None
            | Some ie => let? l := add l ie in add_rows_m m s rs fs l
            end
        | None => mret None
        end
      else add_rows_m m s rs fs l
  | _ :: _, [] => mret None
  end.
(* the list that is left, asn1tostruct.py:485-538 *)
Definition add_ies_m (m : msgdef) (s : ies) : mem (option (list val)) :=
  let? l := add_rows_m m s (m_rows m) (i_fields s) no_cells in mret (option_map ce_items l).
(* ranap_generate_... ranap_common.c:319-423 with _ranap_gen_msg 298-317;
   rua_common.c:108-205 *)
Definition generate_m (P : proto) (d p : N) (crit : Z) (td : ty) (out : val) : mem (option (list N)) :=
  let? ok := ask ABody in
  if ok : bool then
    match encode td out with
    | None => mret None
    | Some o =>
        let? ok := ask AMsg in
        if ok : bool then mret (Some (gen_msg P (pdu_val d p crit o))) else mret None
    end
  else mret None.
(* ies -> out -> msg, e.g. ranap_msg_factory.c:72-88 *)
Definition finish_m (P : proto) (d p : N) (crit : Z) (m : msgdef) (s : ies) : mem (option (list N)) :=
  let? l := add_ies_m m s in
  match l with
  | None => mret None
  | Some l => generate_m P d p crit (m_cont m) (list_val l)
  end.

(* ---------------- arguments built on the heap ---------------- *)
(* the loops 294-318 and 324-347 of ranap_new_msg_sec_mod_cmd2: None if an
   algorithm is not supported *)
Fixpoint alg_loop_m (alg : nat -> option Z) (mask : N) (bits : list nat) (l : cells Z) : mem (option (cells Z)) :=
  match bits with
  | [] => mret (Some l)
  | i :: r =>
      if N.testbit_nat mask i then
        match alg i with
        | None => mret None
        | Some a => let? _ := temp in let? l := add l a in alg_loop_m alg mask r l
        end
      else alg_loop_m alg mask r l
  end.
(* BIT_STRING_fromBuf, OCTET_STRING_fromBuf; the result is not looked at *)
(* ranap_msg_factory.c:317, 346, 724, iu_helpers.c:272, 292, rua_msg_factory.c:21, 58, 94, 135 *)
Definition copy {A} (l : list A) : mem (list A) := let? ok := ask ACopy in mret (if ok : bool then l else []).
(* ranap_msg_factory.c:310-348: the structure of prot_info in Factory.v *)
Definition prot_info_m (algs : cells Z) (key : list N) : mem val :=
  let? k := copy (octets_bits key) in
  mret (VSeq [Some (VList (map VInt (ce_items algs))); Some (VBits k); None] []).
(* ranap_new_msg_sec_mod_cmd2 283-372 *)
Definition sec_mod_cmd2_m (ik : list N) (ck : option (list N)) (status : Z) (uia_mask uea_mask : N) : mem (option (list N)) :=
  let M := M_RANAP_SecurityModeCommandIEs in
  let? ia := alg_loop_m uia uia_mask bits8 no_cells in
  match ia with
  | None => mret None
  | Some ia =>
      let? ii := prot_info_m ia ik in
      let s := put_ie M "id-IntegrityProtectionInformation" ii (zero M) in
      let fin s := finish_m ranap 1 6 0 M (put_ie M "id-KeyStatus" (VEnum status) s) in
      match ck with
      | None => fin s
      | Some ck =>
          let? ea := alg_loop_m uea uea_mask bits8 no_cells in
          match ea with
          | None => mret None
          | Some ea =>
              let? ei := prot_info_m ea ck in
              fin (put_ie M "id-EncryptionInformation" ei (set_mask (macro M "id-EncryptionInformation") s))
          end
      end
  end.
(* ranap_imsi_encode into the buffer just asked for; an empty string writes nothing *)
(* ranap_msg_factory.c:426-427, 525-537, iu_helpers.c:67-91 *)
Definition imsi_m (s : list N) : mem (list N) :=
  let? ok := ask ATemp in
  if ok : bool then mlift (imsi_encode 16 16 s)
  else match s with [] => mret [] | _ => mcrash end.
(* ranap_new_msg_common_id 415-455 *)
Definition common_id_m (imsi : option (list N)) : mem (option (list N)) :=
  let M := M_RANAP_CommonID_IEs in
  match imsi with
  | None => finish_m ranap 1 15 1 M (zero M)
  | Some i => let? o := imsi_m i in finish_m ranap 1 15 1 M (put_ie M "id-PermanentNAS-UE-ID" (imsi_val o) (zero M))
  end.
(* ranap_new_msg_paging_cmd 520-581 *)
Definition paging_m (imsi : list N) (tmsi : option N) (is_ps : bool) (pcause : N) : mem (option (list N)) :=
  let M := M_RANAP_PagingIEs in
  let? o := imsi_m imsi in
  let? _ := (match tmsi with Some _ => temp | None => mret tt end) in
  finish_m ranap 1 14 1 M
    ((if (pcause =? 0)%N then (fun s => s)
      else fun s => put_ie M "id-PagingCause" (VEnum (Z.of_N pcause)) (or_mask (macro M "id-PagingCause") s))
     (ifs tmsi (fun t s => put_ie M "id-TemporaryUE-ID" (VChoice (if is_ps then 1 else 0) (VOcts (store32be t)))
                             (or_mask (macro M "id-TemporaryUE-ID") s))
     (put_ie M "id-PermanentNAS-UE-ID" (imsi_val o)
     (put_ie M "id-CN-DomainIndicator" (is_ps_val is_ps) (zero M))))).

(* new_long 35-40, on its way into a list; the list may be NULL *)
(* ranap_msg_factory.c:35-40, 699-701, 736-737, 903 *)
Definition add_long (l : option (cells val)) (v : val) : mem (option (cells val)) :=
  let? _ := temp in
  match l with Some l => let? l := add l v in mret (Some l) | None => mret None end.
(* CALLOC of a list that may stay NULL *)
(* ranap_msg_factory.c:613, 700, 902 *)
Definition temp_list : mem (option (cells val)) := let? ok := ask ATemp in mret (if ok : bool then Some no_cells else None).
(* vocabulary: the component for such a list, ranap_msg_factory.c:583-763 *)
Definition list_of (l : option (cells val)) : option val := option_map (fun l => VList (ce_items l)) l.
(* new_format_info_pars 594-600, and its adding at 623-648 *)
Definition add_fmti (l : option (cells val)) (size : Z) : mem (option (cells val)) :=
  let? _ := temp in add_long l (fmti size).
(* new_sdu_par_item 610-661 for voice; [err]: the error ratio of the first profile *)
Definition sdu_voice_m (err : option (Z * Z)) (residual : val) (erroneous : Z) (s1 s2 : Z) : mem val :=
  let? ok := ask ATemp in
  let? f := temp_list in
  if ok : bool then
    let? _ := (match err with Some _ => temp | None => mret tt end) in
    let? f := add_fmti f s1 in
    let? f := add_fmti f s2 in
    mret (VSeq [option_map (fun e => ratio (fst e) (snd e)) err; Some residual; some_enum erroneous; list_of f; None] [])
  else mcrash.
(* new_sdu_par_item 610-661 for data: fmtip is released again *)
Definition sdu_data_m : mem val :=
  let? ok := ask ATemp in
  let? _ := ask ATemp in
  if ok : bool then let? _ := temp in mret sdu_data else mcrash.
(* new_rab_par_voice 690-718 *)
Definition rab_par_voice_m (guaranteed max : Z) : mem val :=
  let? _ := temp in
  let? mx := add_long (Some no_cells) (VInt max) in
  let? g := temp_list in
  let? g := add_long g (VInt guaranteed) in
  let? v := sdu_voice_m (Some (1, 5)%Z) (ratio 1 6) 0 81 39 in
  let? l := add no_cells v in
  let? v := sdu_voice_m None (ratio 1 3) 2 103 0 in
  let? l := add l v in
  let? v := sdu_voice_m None (ratio 5 3) 2 60 0 in
  let? l := add l v in
  let? _ := temp in   (* transferDelay *)
  let? _ := temp in   (* new_alloc_ret_prio *)
  let? _ := temp in   (* sourceStatisticsDescriptor *)
  mret (VSeq [some_enum 0; some_enum 0; list_of mx; list_of g; some_enum 0; some_int 244;
        Some (VList (ce_items l)); some_int 80; None; Some (alloc_prio 15 false true false);
        some_enum 0; None; None] []).
(* new_rab_nas_sync_ind 720-726 *)
Definition nas_sync_m (v : N) : mem (option val) :=
  let? ok := ask ATemp in
  if ok : bool then let? b := copy (to_bits 4 (v / 10)) in mret (Some (VBits b)) else mret None.
(* new_rab_par_data 728-763.  The list inside a NULL rab->iE_Extensions or
   rab_mbrlist is at offset 0, hence NULL. *)
Definition rab_par_data_m (dl ul : Z) : mem val :=
  let? _ := temp in
  let? mx := add_long (Some no_cells) (VInt dl) in
  let? mx := add_long mx (VInt ul) in
  let? v := sdu_data_m in
  let? l := add no_cells v in
  let? _ := temp in   (* new_alloc_ret_prio *)
  let? _ := temp in   (* pxf *)
  let? x := temp_list in
  let? x := add_long x (VInt 42000000) in
  let? o := (match list_of x with
             | None => mret []
             | Some v =>
                 let? ok := ask AExt in
                 mret (if ok : bool then match encode T_RANAP_RAB_Parameter_ExtendedMaxBitrateList v with Some o => o | None => [] end else [])
             end) in
  let? e := temp_list in
  let? e := (match e with
             | Some e => let? e := add e (VSeq [some_int 177; some_enum 1; Some (VOcts o)] []) in mret (Some e)
             | None => mret None
             end) in
  mret (VSeq [some_enum 3; some_enum 3; list_of mx; None; some_enum 0; some_int 8000;
        Some (VList (ce_items l)); None; None; Some (alloc_prio 15 false false false); None; None; list_of e] []).
(* new_upi 765-778 *)
Definition upi_m (mode : Z) (versions : N) : mem val :=
  let? ok := ask ATemp in
  let? _ := temp in
  if ok : bool then mret (upi mode versions) else mcrash.
(* assign_new_ra_id 781-789 *)
Definition rab_id_m (rab_id : N) : mem val := let? _ := temp in mret (rab_id_val rab_id).
(* ranap_new_transp_layer_addr iu_helpers.c:197-245 *)
Definition transp_layer_addr_m (out : list N) (addr : sockaddr) (x213 : bool) : mem (Z * list N) :=
  if (sa_family addr =? AF_INET)%N || (sa_family addr =? AF_INET6)%N then
    let? _ := temp in mret (new_transp_layer_addr out addr x213)
  else mret (new_transp_layer_addr out addr x213).
(* what the two functions below share, iu_helpers.c:264-275, 281-295: [ok] says
   whether tli is not NULL; a NULL tli is written to unless the family is wrong *)
Definition transp_info_m (ok : bool) (addr : sockaddr) (x213 : bool) (pr : assoc_pr) (octets : list N) : mem (option transp_info) :=
  let? r := transp_layer_addr_m [] addr x213 in
  if (fst r <? 0)%Z then mret None
  else if ok then let? o := copy octets in mret (Some (mkTli (snd r) (mkAssoc pr o)))
  else mcrash.
(* ranap_new_transp_info_rtp iu_helpers.c:247-276 *)
Definition transp_info_rtp_m (addr : sockaddr) (x213 : bool) : mem (option transp_info) :=
  if (sa_family addr =? AF_INET)%N || (sa_family addr =? AF_INET6)%N then
    let? ok := ask ATemp in transp_info_m ok addr x213 PR_bindingID (store16be (sa_port addr) ++ [0; 0]%N)
  else mret None.
(* ranap_new_transp_info_gtp iu_helpers.c:278-296 *)
Definition transp_info_gtp_m (addr : sockaddr) (tei : N) (x213 : bool) : mem (option transp_info) :=
  let? ok := ask ATemp in transp_info_m ok addr x213 PR_gTP_TEI (store32be tei).
(* ranap_new_ie_pair ranap_common.c:457-496 *)
Definition new_ie_pair_m (id : Z) (crit1 : Z) (t1 : ty) (v1 : val) (crit2 : Z) (t2 : ty) (v2 : val) : mem (option val) :=
  let? ok := ask APair in
  if ok : bool then
    let? ok := ask APair in
    if ok : bool then
      match encode t1 v1 with
      | None => mret None
      | Some _ =>
          let? ok := ask APair in
          if ok : bool then mret (new_ie_pair id crit1 t1 v1 crit2 t2 v2) else mret None
      end
    else mret None
  else mret None.
(* 830-864 and 908-946 *)
Definition rab_assign_m (first second : val) : mem (option (list N)) :=
  let M := M_RANAP_RAB_AssignmentRequestIEs in
  let? pr := new_ie_pair_m 53 0 T_RANAP_RAB_SetupOrModifyItemFirst first 1 T_RANAP_RAB_SetupOrModifyItemSecond second in
  let? c := temp_list in
  let? c := (match c with Some c => let? c := add_opt c pr in mret (Some c) | None => mret None end) in
  let? l := add_opt no_cells (list_of c) in
  finish_m ranap 1 0 0 M
    (put_ie M "id-RAB-SetupOrModifyList" (VList (ce_items l)) (set_mask (macro M "id-RAB-SetupOrModifyList") (zero M))).
(* ranap_new_msg_rab_assign_voice 796-865 *)
Definition rab_voice_m (rab_id rtp_ip rtp_port : N) (x213 : bool) : mem (option (list N)) :=
  let addr := mkSockaddr AF_INET rtp_port (store32be rtp_ip) (repeat 0%N 16) in
  let? id := rab_id_m rab_id in
  let? n := nas_sync_m 60 in
  let? r := rab_par_voice_m 6700 12200 in
  let? u := upi_m 1 1 in
  let? t := transp_info_rtp_m addr x213 in
  rab_assign_m (VSeq [Some id; n; Some r; Some u; tli_val t; None; None] [])
    (VSeq [None; None; None; None; None; None; None] []).
(* ranap_new_msg_rab_assign_data 869-947 *)
Definition rab_data_m (rab_id gtp_ip gtp_tei : N) (x213 : bool) : mem (option (list N)) :=
  let addr := mkSockaddr AF_INET 0 (store32be gtp_ip) (repeat 0%N 16) in
  let? id := rab_id_m rab_id in
  let? r := rab_par_data_m 1600000 800000 in
  let? u := upi_m 0 1 in
  let? t := transp_info_gtp_m addr gtp_tei x213 in
  let? p := temp_list in
  let? p := add_long p (VEnum 3) in
  let? _ := temp in   (* dat_vol_ind *)
  let? _ := temp in   (* dl_GTP_PDU_SequenceNumber *)
  let? _ := temp in   (* ul_GTP_PDU_SequenceNumber *)
  rab_assign_m (VSeq [Some id; None; Some r; Some u; tli_val t; None; None] [])
    (VSeq [list_of p; some_enum 1; some_int 0; some_int 0; None; None; None] []).
(* ranap_new_msg_rab_rel_req 980-1021 *)
Definition rab_rel_req_m (rab_id : N) (c : cause) : mem (option (list N)) :=
  let I := M_RANAP_RAB_ReleaseItemIEs in
  let M := M_RANAP_RAB_ReleaseRequestIEs in
  let? id := rab_id_m rab_id in
  let? l := add_ies_m I (put_ie I "id-RAB-ReleaseItem" (VSeq [Some id; Some (cause_val c); None] []) (zero I)) in
  match l with
  | None => mret None
  | Some l => finish_m ranap 1 10 1 M (put_ie M "id-RAB-ReleaseList" (list_val l) (zero M))
  end.
(* ranap_new_msg_reset_resource 1024-1090 *)
Definition reset_resource_m (domain : Z) (c : cause) (ids : list N) (rnc : option global_rnc) : mem (option (list N)) :=
  let I := M_RANAP_ResetResourceItemIEs in
  let M := M_RANAP_ResetResourceIEs in
  match ids with
  | [id] =>
      let? l := add_ies_m I (put_ie I "id-IuSigConIdItem" (VSeq [Some (VBits (to_bits 24 id)); None] []) (zero I)) in
      match l with
      | None => mret None
      | Some l =>
          finish_m ranap 1 27 0 M
            (ifs rnc (fun g s => put_ie M "id-GlobalRNC-ID" (grnc_val g) (set_mask (macro M_RANAP_ResetIEs "id-GlobalRNC-ID") s))
            (put_ie M "id-IuSigConIdList" (list_val l)
            (put_ie M "id-Cause" (cause_val c)
            (put_ie M "id-CN-DomainIndicator" (dom_val domain) (zero M)))))
      end
  | _ => mret None
  end.

(* ---------------- all calls ---------------- *)
(* the functions of ranap_msg_factory.c:43-1090; those that build nothing on the
   heap fill the structure as in Factory.v *)
Definition do_call_m (k : call) : mem (option (list N)) :=
  match k with
  | CallReset d c rnc =>
      let M := M_RANAP_ResetIEs in
      finish_m ranap 1 9 0 M
        (ifs rnc (fun g s => put_ie M "id-GlobalRNC-ID" (grnc_val g) (set_mask (macro M_RANAP_ResetIEs "id-GlobalRNC-ID") s))
        (ifs c (fun c s => put_ie M "id-Cause" (cause_val c) s)
        (put_ie M "id-CN-DomainIndicator" (dom_val d) (zero M))))
  | CallResetAck d rnc =>
      let M := M_RANAP_ResetAcknowledgeIEs in
      finish_m ranap 2 9 0 M
        (ifs rnc (fun g s => put_ie M "id-GlobalRNC-ID" (grnc_val g) (set_mask (macro M_RANAP_ResetAcknowledgeIEs "id-GlobalRNC-ID") s))
        (put_ie M "id-CN-DomainIndicator" (dom_val d) (zero M)))
  | CallErrorInd c cd domain rnc =>
      let M := M_RANAP_ErrorIndicationIEs in
      finish_m ranap 1 22 1 M
        (ifs rnc (fun g s => put_ie M "id-GlobalRNC-ID" (grnc_val g) (set_mask (macro M_RANAP_ResetAcknowledgeIEs "id-GlobalRNC-ID") s))
        (ifs domain (fun d s => put_ie M "id-CN-DomainIndicator" (dom_val d) (or_mask (macro M "id-CN-DomainIndicator") s))
        (ifs cd (fun v s => put_ie M "id-CriticalityDiagnostics" v (or_mask (macro M "id-CriticalityDiagnostics") s))
        (ifs c (fun c s => put_ie M "id-Cause" (cause_val c) (or_mask (macro M "id-Cause") s))
        (zero M)))))
  | CallInitialUe le conn_id is_ps g nas =>
      let M := M_RANAP_InitialUE_MessageIEs in
      let o l := Some (VOcts l) in
      finish_m ranap 1 19 1 M
        (put_ie M "id-GlobalRNC-ID" (grnc_val g)
        (put_ie M "id-IuSigConId" (VBits (to_bits 24 conn_id))
        (put_ie M "id-NAS-PDU" (VOcts nas)
        (put_ie M "id-SAI" (VSeq [o (g_plmn g); o (buf0 le); o (buf0 le); None] [])
        (put_ie M "id-LAI" (VSeq [o (g_plmn g); o (buf0 le); None] [])
        (put_ie M "id-CN-DomainIndicator" (is_ps_val is_ps) (zero M)))))))
  | CallDt sapi nas =>
      let M := M_RANAP_DirectTransferIEs in
      finish_m ranap 1 20 1 M
        (put_ie M "id-NAS-PDU" (VOcts nas)
        (put_ie M "id-SAPI" (VEnum (if (sapi =? 3)%N then 1 else 0))
        (set_mask (macro M "id-SAPI") (zero M))))
  | CallSecModCmd ik ck status a b => sec_mod_cmd2_m ik ck status a b
  | CallSecModCompl ialg ealg =>
      let M := M_RANAP_SecurityModeCompleteIEs in
      finish_m ranap 2 6 0 M
        (put_ie M "id-ChosenEncryptionAlgorithm" (VInt ealg)
        (put_ie M "id-ChosenIntegrityProtectionAlgorithm" (VInt ialg)
        (set_mask (macro M "id-ChosenEncryptionAlgorithm") (zero M))))
  | CallCommonId i => common_id_m i
  | CallIuRelCmd c =>
      let M := M_RANAP_Iu_ReleaseCommandIEs in finish_m ranap 1 1 0 M (put_ie M "id-Cause" (cause_val c) (zero M))
  | CallIuRelCompl => let M := M_RANAP_Iu_ReleaseCompleteIEs in finish_m ranap 2 1 0 M (zero M)
  | CallPaging i t p c => paging_m i t p c
  | CallRabVoice r i p x => rab_voice_m r i p x
  | CallRabData r i t x => rab_data_m r i t x
  | CallIuRelReq c =>
      let M := M_RANAP_Iu_ReleaseRequestIEs in finish_m ranap 1 11 1 M (put_ie M "id-Cause" (cause_val c) (zero M))
  | CallRabRelReq r c => rab_rel_req_m r c
  | CallResetResource d c i r => reset_resource_m d c i r
  end.

(* ---------------- RUA ---------------- *)
(* the common end of the functions of rua_msg_factory.c, e.g. 24-40: NULL if the IEs
   cannot be encoded; the identifier is stored through the pointer the generator
   returned *)
Definition rua_end_m (p : N) (m : msgdef) (s : ies) : mem (option (list N * N)) :=
  let? l := add_ies_m m s in
  match l with
  | None => mret None
  | Some l =>
      let? b := generate_m rua 1 p 0 (m_cont m) (list_val l) in
      match b with Some b => mret (Some (b, ppi_rua)) | None => mcrash end
  end.
(* rua_msg_factory.c:13-156 *)
Definition do_rua_m (c : rua_call) : mem (option (list N * N)) :=
  match c with
  | RUdt None | RConn _ _ None | RDt _ _ None => mcrash
  | RUdt (Some d) =>
      let M := M_RUA_ConnectionlessTransferIEs in
      let? d := copy d in rua_end_m 4 M (put_ie M "id-RANAP-Message" (VOcts d) (zero M))
  | RConn is_ps id (Some d) =>
      let M := M_RUA_ConnectIEs in
      let? d := copy d in
      rua_end_m 1 M
        (put_ie M "id-RANAP-Message" (VOcts d)
        (put_ie M "id-Establishment-Cause" (VEnum 1)
        (put_ie M "id-Context-ID" (ctx_val id)
        (put_ie M "id-CN-DomainIndicator" (rua_dom is_ps) (zero M)))))
  | RDt is_ps id (Some d) =>
      let M := M_RUA_DirectTransferIEs in
      let? d := copy d in
      rua_end_m 2 M
        (put_ie M "id-RANAP-Message" (VOcts d)
        (put_ie M "id-Context-ID" (ctx_val id)
        (put_ie M "id-CN-DomainIndicator" (rua_dom is_ps) (zero M))))
  | RDisc is_ps id d =>
      let M := M_RUA_DisconnectIEs in
      let s := put_ie M "id-Cause" (VChoice 0 (VEnum 0))
              (put_ie M "id-Context-ID" (ctx_val id)
              (put_ie M "id-CN-DomainIndicator" (rua_dom is_ps) (zero M))) in
      match d with
      | None | Some [] => rua_end_m 3 M s
      | Some d =>
          let? d := copy d in
          rua_end_m 3 M (put_ie M "id-RANAP-Message" (VOcts d) (or_mask (macro M "id-RANAP-Message") s))
      end
  end.
End Deny.
