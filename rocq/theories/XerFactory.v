(* The message factories with asn1_xer_print: which message comes out, and what was printed.
   Memory is left out here: see Factory.v and C107_failed_output. *)
From Verif Require Import Base Aper RanapTypes RanapTab RuaTab Container Helpers Factory_spec Factory RuaFactory Xer.
From Coq Require Import String List ZArith NArith.
Import ListNotations.
Local Open Scope list_scope.

Section Output.
Context (on : bool) (out : nat -> bool).
(* ranap_encode_xxxies, asn1tostruct.py:491-538: the IEs of one list *)
Definition ies_x (m : msgdef) (s : ies) (log : list printed) : option (list val) * list printed :=
  fst (encode_rows_x on out m s (m_rows m) (i_fields s) log).
(* ies -> out -> msg, e.g. ranap_msg_factory.c:72-88; the message itself is not printed *)
Definition finish_x (P : proto) (d p : N) (crit : Z) (m : msgdef) (s : ies) (log : list printed) : option (list N) * list printed :=
  match ies_x m s log with
  | (Some l, log) => (generate P d p crit (m_cont m) (list_val l), log)
  | (None, log) => (None, log)
  end.
(* ranap_new_msg_sec_mod_cmd2 ranap_msg_factory.c:283-372 *)
Definition sec_mod_cmd2_x (ik : list N) (ck : option (list N)) (status : Z) (uia_mask uea_mask : N) : option (list N) * list printed :=
  let M := M_RANAP_SecurityModeCommandIEs in
  let '(ia, ok) := alg_loop uia uia_mask bits8 in
  if negb ok then (None, [])
  else
    let s := put_ie M "id-IntegrityProtectionInformation" (prot_info ia ik) (zero M) in
    match ck with
    | None => finish_x ranap 1 6 0 M (put_ie M "id-KeyStatus" (VEnum status) s) []
    | Some ck =>
        let '(ea, ok) := alg_loop uea uea_mask bits8 in
        if negb ok then (None, [])
        else finish_x ranap 1 6 0 M (put_ie M "id-KeyStatus" (VEnum status)
               (put_ie M "id-EncryptionInformation" (prot_info ea ck) (set_mask (macro M "id-EncryptionInformation") s))) []
    end.
(* ranap_msg_factory.c:830-864 and 908-946: the pair is printed and may be missing then *)
Definition rab_assign_x (first second : val) : option (list N) * list printed :=
  let M := M_RANAP_RAB_AssignmentRequestIEs in
  let '(item, log) := new_ie_pair_x on out 53 0 T_RANAP_RAB_SetupOrModifyItemFirst first 1 T_RANAP_RAB_SetupOrModifyItemSecond second [] in
  let lst := VList [VList (match item with Some v => [v] | None => [] end)] in
  finish_x ranap 1 0 0 M
    (put_ie M "id-RAB-SetupOrModifyList" lst (set_mask (macro M "id-RAB-SetupOrModifyList") (zero M))) log.
(* ranap_new_msg_rab_rel_req ranap_msg_factory.c:980-1021 *)
Definition rab_rel_req_x (rab_id : N) (c : cause) : option (list N) * list printed :=
  let I := M_RANAP_RAB_ReleaseItemIEs in
  let M := M_RANAP_RAB_ReleaseRequestIEs in
  match ies_x I (put_ie I "id-RAB-ReleaseItem" (VSeq [Some (rab_id_val rab_id); Some (cause_val c); None] []) (zero I)) [] with
  | (None, log) => (None, log)
  | (Some l, log) => finish_x ranap 1 10 1 M (put_ie M "id-RAB-ReleaseList" (list_val l) (zero M)) log
  end.
(* ranap_new_msg_reset_resource ranap_msg_factory.c:1024-1090 *)
Definition reset_resource_x (domain : Z) (c : cause) (ids : list N) (rnc : option global_rnc) : option (list N) * list printed :=
  let I := M_RANAP_ResetResourceItemIEs in
  let M := M_RANAP_ResetResourceIEs in
  match ids with
  | [id] =>
      match ies_x I (put_ie I "id-IuSigConIdItem" (VSeq [Some (VBits (to_bits 24 id)); None] []) (zero I)) [] with
      | (None, log) => (None, log)
      | (Some l, log) =>
          finish_x ranap 1 27 0 M
            (ifs rnc (fun g s => put_ie M "id-GlobalRNC-ID" (grnc_val g) (set_mask (macro M_RANAP_ResetIEs "id-GlobalRNC-ID") s))
            (put_ie M "id-IuSigConIdList" (list_val l)
            (put_ie M "id-Cause" (cause_val c)
            (put_ie M "id-CN-DomainIndicator" (dom_val domain) (zero M))))) log
      end
  | _ => (None, [])
  end.
(* the functions of ranap_msg_factory.c:43-1090 *)
Definition do_call_x (k : call) : outcome (option (list N) * list printed) :=
  match k with
  | CallReset domain c rnc =>
      let M := M_RANAP_ResetIEs in
      Ok (finish_x ranap 1 9 0 M
        (ifs rnc (fun g s => put_ie M "id-GlobalRNC-ID" (grnc_val g) (set_mask (macro M_RANAP_ResetIEs "id-GlobalRNC-ID") s))
        (ifs c (fun c s => put_ie M "id-Cause" (cause_val c) s)
        (put_ie M "id-CN-DomainIndicator" (dom_val domain) (zero M)))) [])
  | CallResetAck domain rnc =>
      let M := M_RANAP_ResetAcknowledgeIEs in
      Ok (finish_x ranap 2 9 0 M
        (ifs rnc (fun g s => put_ie M "id-GlobalRNC-ID" (grnc_val g) (set_mask (macro M_RANAP_ResetAcknowledgeIEs "id-GlobalRNC-ID") s))
        (put_ie M "id-CN-DomainIndicator" (dom_val domain) (zero M))) [])
  | CallErrorInd c cd domain rnc =>
      let M := M_RANAP_ErrorIndicationIEs in
      Ok (finish_x ranap 1 22 1 M
        (ifs rnc (fun g s => put_ie M "id-GlobalRNC-ID" (grnc_val g) (set_mask (macro M_RANAP_ResetAcknowledgeIEs "id-GlobalRNC-ID") s))
        (ifs domain (fun d s => put_ie M "id-CN-DomainIndicator" (dom_val d) (or_mask (macro M "id-CN-DomainIndicator") s))
        (ifs cd (fun v s => put_ie M "id-CriticalityDiagnostics" v (or_mask (macro M "id-CriticalityDiagnostics") s))
        (ifs c (fun c s => put_ie M "id-Cause" (cause_val c) (or_mask (macro M "id-Cause") s))
        (zero M))))) [])
  | CallInitialUe le conn_id is_ps g nas =>
      let M := M_RANAP_InitialUE_MessageIEs in
      let o l := Some (VOcts l) in
      Ok (finish_x ranap 1 19 1 M
        (put_ie M "id-GlobalRNC-ID" (grnc_val g)
        (put_ie M "id-IuSigConId" (VBits (to_bits 24 conn_id))
        (put_ie M "id-NAS-PDU" (VOcts nas)
        (put_ie M "id-SAI" (VSeq [o (g_plmn g); o (buf0 le); o (buf0 le); None] [])
        (put_ie M "id-LAI" (VSeq [o (g_plmn g); o (buf0 le); None] [])
        (put_ie M "id-CN-DomainIndicator" (is_ps_val is_ps) (zero M))))))) [])
  | CallDt sapi nas =>
      let M := M_RANAP_DirectTransferIEs in
      Ok (finish_x ranap 1 20 1 M
        (put_ie M "id-NAS-PDU" (VOcts nas)
        (put_ie M "id-SAPI" (VEnum (if (sapi =? 3)%N then 1 else 0))
        (set_mask (macro M "id-SAPI") (zero M)))) [])
  | CallSecModCmd ik ck st a b => Ok (sec_mod_cmd2_x ik ck st a b)
  | CallSecModCompl ialg ealg =>
      let M := M_RANAP_SecurityModeCompleteIEs in
      Ok (finish_x ranap 2 6 0 M
        (put_ie M "id-ChosenEncryptionAlgorithm" (VInt ealg)
        (put_ie M "id-ChosenIntegrityProtectionAlgorithm" (VInt ialg)
        (set_mask (macro M "id-ChosenEncryptionAlgorithm") (zero M)))) [])
  | CallCommonId imsi =>
      let M := M_RANAP_CommonID_IEs in
      match imsi with
      | None => Ok (finish_x ranap 1 15 1 M (zero M) [])
      | Some s =>
          do o <- imsi_encode 16 16 s ;;
          Ok (finish_x ranap 1 15 1 M (put_ie M "id-PermanentNAS-UE-ID" (imsi_val o) (zero M)) [])
      end
  | CallIuRelCmd c =>
      let M := M_RANAP_Iu_ReleaseCommandIEs in
      Ok (finish_x ranap 1 1 0 M (put_ie M "id-Cause" (cause_val c) (zero M)) [])
  | CallIuRelCompl => let M := M_RANAP_Iu_ReleaseCompleteIEs in Ok (finish_x ranap 2 1 0 M (zero M) [])
  | CallPaging imsi tmsi is_ps pcause =>
      let M := M_RANAP_PagingIEs in
      do o <- imsi_encode 16 16 imsi ;;
      Ok (finish_x ranap 1 14 1 M
        ((if (pcause =? 0)%N then (fun s => s)
          else fun s => put_ie M "id-PagingCause" (VEnum (Z.of_N pcause)) (or_mask (macro M "id-PagingCause") s))
        (ifs tmsi (fun t s => put_ie M "id-TemporaryUE-ID" (VChoice (if is_ps then 1 else 0) (VOcts (store32be t)))
                                (or_mask (macro M "id-TemporaryUE-ID") s))
        (put_ie M "id-PermanentNAS-UE-ID" (imsi_val o)
        (put_ie M "id-CN-DomainIndicator" (is_ps_val is_ps) (zero M))))) [])
  | CallRabVoice rab_id rtp_ip rtp_port x213 =>
      Ok (rab_assign_x
        (VSeq [Some (rab_id_val rab_id); Some (nas_sync_ind 60); Some (rab_par_voice 6700 12200); Some (upi 1 1);
               tli_val (new_transp_info_rtp (mkSockaddr AF_INET rtp_port (store32be rtp_ip) (repeat 0%N 16)) x213); None; None] [])
        (VSeq [None; None; None; None; None; None; None] []))
  | CallRabData rab_id gtp_ip gtp_tei x213 =>
      Ok (rab_assign_x
        (VSeq [Some (rab_id_val rab_id); None; Some (rab_par_data 1600000 800000); Some (upi 0 1);
               tli_val (new_transp_info_gtp (mkSockaddr AF_INET 0 (store32be gtp_ip) (repeat 0%N 16)) gtp_tei x213); None; None] [])
        (VSeq [Some (VList [VEnum 3]); some_enum 1; some_int 0; some_int 0; None; None; None] []))
  | CallIuRelReq c =>
      let M := M_RANAP_Iu_ReleaseRequestIEs in
      Ok (finish_x ranap 1 11 1 M (put_ie M "id-Cause" (cause_val c) (zero M)) [])
  | CallRabRelReq r c => Ok (rab_rel_req_x r c)
  | CallResetResource d c i r => Ok (reset_resource_x d c i r)
  end.

(* the end of the four functions of rua_msg_factory.c:24-40, 61-77, 97-113, 139-155 *)
Definition rua_end_x (p : N) (m : msgdef) (s : ies) : outcome (option (list N * N) * list printed) :=
  match ies_x m s [] with
  | (None, log) => Ok (None, log)
  | (Some l, log) =>
      match generate rua 1 p 0 (m_cont m) (list_val l) with
      | None => Fault NullDeref
      | Some o => Ok (Some (o, ppi_rua), log)
      end
  end.
(* rua_msg_factory.c:13-156 *)
Definition do_rua_x (c : rua_call) : outcome (option (list N * N) * list printed) :=
  match c with
  | RUdt None | RConn _ _ None | RDt _ _ None => Fault NullDeref
  | RUdt (Some d) => let M := M_RUA_ConnectionlessTransferIEs in rua_end_x 4 M (put_ie M "id-RANAP-Message" (VOcts d) (zero M))
  | RConn is_ps context_id (Some d) =>
      let M := M_RUA_ConnectIEs in
      rua_end_x 1 M
        (put_ie M "id-RANAP-Message" (VOcts d)
        (put_ie M "id-Establishment-Cause" (VEnum 1)
        (put_ie M "id-Context-ID" (ctx_val context_id)
        (put_ie M "id-CN-DomainIndicator" (rua_dom is_ps) (zero M)))))
  | RDt is_ps context_id (Some d) =>
      let M := M_RUA_DirectTransferIEs in
      rua_end_x 2 M
        (put_ie M "id-RANAP-Message" (VOcts d)
        (put_ie M "id-Context-ID" (ctx_val context_id)
        (put_ie M "id-CN-DomainIndicator" (rua_dom is_ps) (zero M))))
  | RDisc is_ps context_id inmsg =>
      let M := M_RUA_DisconnectIEs in
      let s := put_ie M "id-Cause" (VChoice 0 (VEnum 0))
              (put_ie M "id-Context-ID" (ctx_val context_id)
              (put_ie M "id-CN-DomainIndicator" (rua_dom is_ps) (zero M))) in
      match inmsg with
      | None | Some [] => rua_end_x 3 M s
      | Some d => rua_end_x 3 M (put_ie M "id-RANAP-Message" (VOcts d) (or_mask (macro M "id-RANAP-Message") s))
      end
  end.
End Output.
