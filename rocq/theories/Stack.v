(* The client of iu_client.c on top of the decoders, receive functions and
   message factory that it calls: the fields of [env] that stand for them are
   filled with their models.  SCCP and the application stay arbitrary. *)
From Verif Require Import Base Lai Aper Container RanapTypes RanapTab Dispatch Factory Factory_spec IuClient.
From Coq Require Import String List.
Local Open Scope list_scope.
Local Open Scope string_scope.
Local Open Scope list_scope.

(* a member of the message structure *)
(* a member written by asn1tostruct.py:204-216, read at iu_client.c:451-645, 748-768 *)
Definition field (m : msgdef) (s : Container.ies) (n : string) : option val :=
  match find (fun rf : row * option val => String.eqb (r_ie (fst rf)) n) (combine (m_rows m) (i_fields s)) with
  | Some (_, f) => f
  | None => None
  end.
(* ies->presenceMask & ..._PRESENT *)
(* iu_client.c:467, 512-521, 627, 759 *)
Definition present (m : msgdef) (s : Container.ies) (n : string) : bool :=
  match find (fun r => String.eqb (r_ie r) n) (m_rows m) with Some r => has_flag m s r | None => false end.

(* The C members of decoded values; what was zeroed by memset and never decoded
   is 0, an empty string or an empty list. *)
(* OCTET_STRING_t members read at iu_client.c:451-537 *)
Definition c_octs (v : option val) : list N := match v with Some (VOcts o) => o | _ => [] end.
(* read at iu_client.c:763 *)
Definition c_enum (v : option val) : N := match v with Some (VEnum z) => Z.to_N z | _ => 0%N end.
(* read at iu_client.c:420-431 *)
Definition c_int (v : option val) : N := match v with Some (VInt z) => Z.to_N z | _ => 0%N end.
(* component i of a SEQUENCE *)
(* . on the structures read at iu_client.c:451-645 *)
Definition comp (i : nat) (v : option val) : option val :=
  match v with Some (VSeq l _) => match nth_error l i with Some o => o | None => None end | _ => None end.
(* RANAP_LAI_t: pLMNidentity, lAC; RANAP_SAI_t: pLMNidentity, lAC, sAC;
   RANAP_GlobalRNC_ID_t: pLMNidentity, rNC_ID; RANAP_Cause_t: present, choice *)
(* RANAP_LAI.h:25-32 *)
Definition c_lai (v : option val) : ranap_lai := mkRLai (c_octs (comp 0 v)) (c_octs (comp 1 v)).
(* RANAP_SAI.h:26-34 *)
Definition c_sac (v : option val) : list N := c_octs (comp 2 v).
(* RANAP_GlobalRNC-ID.h:24-30 *)
Definition c_grnc (v : option val) : ranap_grnc := Lai.mkGrnc (c_octs (comp 0 v)) (c_int (comp 1 v)).
(* RANAP_Cause.h:29-59 *)
Definition c_cause (v : option val) : IuClient.cause :=
  match v with Some (VChoice i x) => IuClient.mkCause (N.of_nat i + 1) (c_int (Some x)) | _ => IuClient.mkCause 0 0 end.
(* raB_SetupOrModifiedList_ies.list.array: the values of the RANAP_IE_t *)
(* read at iu_client.c:621-645 *)
Definition c_items (v : option val) : list (list N) :=
  match comp 0 v with Some (VList l) => map (fun x => c_octs (comp 2 (Some x))) l | _ => [] end.
(* iu_client.c:467, 512-521, 627, 759 *)
Definition if_present {A} (m : msgdef) (s : Container.ies) (n : string) (f : option val -> A) : option A :=
  if present m s n then Some (f (field m s n)) else None.

(* the member of the union that iu_client.c reads, by the type that was decoded:
   451-504, 506-537, 614-645, 748-768 *)
Definition view (g : rmsg) : message :=
  IuClient.mkMsg (g_dir g) (g_proc g)
    match g_body g with
    | None => I_Other
    | Some (m, s) =>
        if String.eqb (m_key m) "InitialUE-MessageIEs" then
          I_InitialUE (mkInitialUe (c_enum (field m s "id-CN-DomainIndicator")) (c_lai (field m s "id-LAI"))
            (if_present m s "id-RAC" c_octs) (c_sac (field m s "id-SAI")) (c_octs (field m s "id-NAS-PDU"))
            (c_grnc (field m s "id-GlobalRNC-ID")))
        else if String.eqb (m_key m) "DirectTransferIEs" then
          I_DirectTransfer (mkDt (c_octs (field m s "id-NAS-PDU")) (if_present m s "id-LAI" c_lai)
            (if_present m s "id-RAC" c_octs) (if_present m s "id-SAI" c_sac))
        else if String.eqb (m_key m) "ErrorIndicationIEs" then I_ErrorIndication
        else if String.eqb (m_key m) "Iu-ReleaseRequestIEs" then I_IuReleaseRequest (c_cause (field m s "id-Cause"))
        else if String.eqb (m_key m) "RAB-AssignmentResponseIEs" then
          I_RabAssignmentResponse (if_present m s "id-RAB-SetupOrModifiedList" c_items)
        else if String.eqb (m_key m) "ResetIEs" then
          I_Reset (c_enum (field m s "id-CN-DomainIndicator")) (if_present m s "id-GlobalRNC-ID" c_grnc)
        else I_Other
    end.

(* ranap_cn_rx_co, ranap_cn_rx_cl: the message the handler is called with *)
(* ranap_common_cn.c:411-427, 659-675 *)
Definition shown_to_handler (r : rx) : option message := match x_calls r with g :: _ => Some (view g) | [] => None end.

(* ranap_common.c:560-583 ranap_decode_rab_setupormodifieditemies_fromlist: the
   decoded item is named by the number whose digits to the base 256 are a 1
   followed by its octets *)
Definition item_code (o : list N) : N := fold_left (fun a b => a * 256 + b)%N o 1%N.
(* ranap_common.c:560-583 *)
Definition decode_item (o : list N) : outcome (option N) :=
  match decode T_RANAP_RAB_SetupOrModifiedItem o with Some _ => Ok (Some (item_code o)) | None => Ok None end.

(* the calls of the message factory: iu_client.c:390-391, 410, 564, 590, 763, 830.
   RANAP_KeyStatus: old 0, new 1 *)
Definition f_cause (c : IuClient.cause) : Factory_spec.cause := Factory_spec.mkCause (IuClient.c_present c) (Z.of_N (IuClient.c_value c)).
(* iu_client.c:763 *)
Definition f_grnc (g : ranap_grnc) : global_rnc := Factory_spec.mkGrnc (Lai.g_plmn g) (Z.of_N (Lai.g_rnc g)).
(* the result of a function of ranap_msg_factory.c:43-1090 *)
Definition made_msg (o : outcome made) : outcome (option (list N)) :=
  match o with Ok m => Ok (r_msg m) | Fault f => Fault f end.
(* iu_client.c:390-391, 410, 564, 590, 763, 830 *)
Definition octets_of (m : dl_msg) : outcome (option (list N)) :=
  match m with
  | DL_DirectTransfer sapi nas => Ok (r_msg (new_msg_dt sapi nas))
  | DL_SecModeCmd ik ck nk => Ok (r_msg (new_msg_sec_mod_cmd ik ck (if nk then 1 else 0)))
  | DL_CommonId imsi => made_msg (new_msg_common_id (Some imsi))
  | DL_IuReleaseCmd c => Ok (r_msg (new_msg_iu_rel_cmd (f_cause c)))
  | DL_Paging imsi tmsi is_ps c => made_msg (new_msg_paging_cmd imsi tmsi is_ps c)
  | DL_ResetAck d g => Ok (r_msg (new_msg_reset_ack (Z.of_N d) (option_map f_grnc g)))
  | DL_Raw b => Ok (Some b)
  end.
(* the factory returned a message.  An overrun inside the factory (an IMSI string
   of more than 32 characters) counts as a crash like NULL does. *)
(* iu_client.c:390-391, 410, 564, 590, 763, 830 *)
Definition has_octets (m : dl_msg) : bool := match octets_of m with Ok (Some _) => true | _ => false end.

(* the calls at iu_client.c:670-813, 390-391, 410, 564, 590, 763, 830 *)
Definition stack (E : env) : env :=
  mkEnv (fun data => shown_to_handler (rx_cn_co data)) (fun data => shown_to_handler (rx_cn_cl data))
        decode_item has_octets (send E) (IuClient.app E) (app_rc E) (has_event_cb E) (addr_dump E) (ri_match E).
