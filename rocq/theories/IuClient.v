(* Model of /repo/src/iu_client.c: the core network side of Iu.

   The three global lists (ue_conn_ctx_list, rnc_list, ue_conn_sccp_addr_list)
   and an allocation counter make up the state.  A UE context or RNC record is
   identified by its allocation number ("pointer"); a UE context that is not in
   the list any more has been freed, so a dereference of its pointer is the
   observable fault [UseAfterFree].

   Everything the code calls outside this file is a field of [env]: message
   decoding and encoding, SCCP, and the application.  The application's
   callbacks may call any API function, any number of times, depending on
   everything that happened before (field [app]).  Logging is not modelled. *)
From Verif Require Import Base Lai.

(* ------------------------------------------------------------------ *)
(* Vocabulary *)
(* struct ranap_ue_conn_ctx *, struct ranap_iu_rnc *: iu_client.h:21-33, iu_client.c:72-80 *)
Definition ptr := N.

(* struct osmo_sccp_addr (libosmo-sigtran): point code and subsystem number if
   present; the remaining fields (routing indicator, global title) are opaque *)
(* used at iu_client.c:51-80, 304-309 *)
Record sccp_addr := mkAddr { a_pc : option N; a_ssn : option N; a_rest : N }.

(* RANAP_Cause_t: CHOICE index and enumeration value *)
(* RANAP_Cause.h:30-38 *)
Record cause := mkCause { c_present : N; c_value : N }.
(* RANAP_Cause_PR_nAS = 3, RANAP_CauseNAS_normal_release = 83 *)
(* iu_client.c:578-598; RANAP_CauseNAS.h:25 *)
Definition cause_normal_release := mkCause 3 83.

(* RANAP_RANAP_PDU_PR: value of message->direction *)
(* RANAP_RANAP-PDU.h:28 *)
Definition PR_initiatingMessage : N := 1.
(* RANAP_RANAP-PDU.h:29 *)
Definition PR_successfulOutcome : N := 2.
(* RANAP_RANAP-PDU.h:30 *)
Definition PR_unsuccessfulOutcome : N := 3.
(* RANAP_RANAP-PDU.h:31 *)
Definition PR_outcome : N := 4.
(* RANAP_ProcedureCode.h *)
(* RANAP_ProcedureCode.h:23 *)
Definition id_RAB_Assignment : N := 0.
(* RANAP_ProcedureCode.h:24 *)
Definition id_Iu_Release : N := 1.
(* RANAP_ProcedureCode.h:29 *)
Definition id_SecurityModeControl : N := 6.
(* RANAP_ProcedureCode.h:31 *)
Definition id_Reset : N := 9.
(* RANAP_ProcedureCode.h:33 *)
Definition id_Iu_ReleaseRequest : N := 11.
(* RANAP_ProcedureCode.h:41 *)
Definition id_InitialUE_Message : N := 19.
(* RANAP_ProcedureCode.h:42 *)
Definition id_DirectTransfer : N := 20.
(* RANAP_ProcedureCode.h:44 *)
Definition id_ErrorIndication : N := 22.

(* The IEs of received messages that iu_client.c looks at.  An optional IE is
   an option (presenceMask bit); a mandatory OCTET STRING that was missing in
   the message is the empty list, as left by the decoder's memset. *)
(* read at iu_client.c:451-504 *)
Record initial_ue := mkInitialUe {
  iu_domain : N; iu_lai : ranap_lai; iu_rac : option (list N);
  iu_sac : list N; iu_nas : list N; iu_grnc : ranap_grnc }.
(* read at iu_client.c:506-537 *)
Record direct_transfer := mkDt {
  dt_nas : list N; dt_lai : option ranap_lai; dt_rac : option (list N);
  dt_sac : option (list N) }.
(* the union members read at iu_client.c:670-746 and 782-813 *)
Inductive ies :=
| I_InitialUE (i : initial_ue)
| I_DirectTransfer (d : direct_transfer)
| I_ErrorIndication
| I_IuReleaseRequest (c : cause)
| I_RabAssignmentResponse (setup_list : option (list (list N)))
    (* RAB_SetupOrModifiedList: encoded items *)
| I_Reset (domain : N) (grnc : option ranap_grnc)
| I_Other.
(* the ranap_message read at iu_client.c:670-746 and 782-813 *)
Record message := mkMsg { m_dir : N; m_proc : N; m_ies : ies }.

(* Messages sent *)
(* created at iu_client.c:390-391, 410, 564, 590, 763, 830; DL_Raw is the msgb of :362-375 *)
Inductive dl_msg :=
| DL_DirectTransfer (sapi : N) (nas : list N)
| DL_SecModeCmd (ik : list N) (ck : option (list N)) (new_key : bool)
| DL_CommonId (imsi : list N)
| DL_IuReleaseCmd (c : cause)
| DL_Paging (imsi : list N) (tmsi : option N) (is_ps : bool) (cause : N)
| DL_ResetAck (domain : N) (grnc : option ranap_grnc)
| DL_Raw (msg : list N).
(* given to SCCP at iu_client.c:181-190, 362-418, 550-598, 748-768, 825-833, 985-996 *)
Inductive sccp_req :=
| NConnectResp (conn : N)
| NDataReq (conn : N) (m : dl_msg)
| NDisconnectReq (conn : N)
| NUnitdataReq (called : sccp_addr) (m : dl_msg).

(* enum ranap_iu_event_type and its data (iu_client.h) *)
(* iu_client.h:35-47 *)
Inductive area := NewLac (l : lai) | NewRac (r : rai).
(* iu_client.h:49-55 *)
Inductive event :=
| EvRabAssign (item : N)
| EvSecurityModeComplete
| EvIuRelease
| EvLinkInvalidated
| EvNewArea (r : rnc_id) (a : area).

(* API calls (iu_client.h) *)
(* iu_client.h:73-103 *)
Inductive api :=
| ATx (buf : N) (dst : option ptr) (nas : list N) (sapi : N)
| ATxSecModeCmd (ue : ptr) (ik ck : list N) (send_ck new_key : bool)
| ATxCommonId (ue : ptr) (imsi : list N)
| ATxRelease (ue : ptr) (c : option cause)
| ATxReleaseFree (ue : ptr) (c : option cause) (timeout : Z)
| AFreeUe (ue : option ptr)
| ARabAct (ue : ptr) (msg : list N)
| ARabDeact (ue : ptr) (rab_id : N)
| APageCs (imsi : list N) (tmsi : option N) (lac : N)
| APagePs (imsi : list N) (ptmsi : option N) (lac rac : N)
| APageCs2 (imsi : list N) (tmsi : option N) (l : lai)
| APagePs2 (imsi : list N) (ptmsi : option N) (r : rai).

(* Observable effects, in order *)
(* vocabulary: the observations the properties speak of, made at iu_client.c:114-145, 459-537, 550-598, 985-996, 1152-1260 *)
Inductive eff :=
| ESccp (r : sccp_req)                       (* primitive given to SCCP *)
| ERecv (ue : ptr) (nas : list N) (ra : option ra_id) (sai : option N)
                                             (* receive callback *)
| EEvent (ue : option ptr) (e : event)       (* event callback *)
| EApi (a : api)                             (* API function entered *)
| ERet (rc : Z)                              (* API function returned *)
| EBufAlloc                                  (* NAS buffer allocated *)
| EBufFree                                   (* NAS buffer freed *)
| ENasFree (buf : N)                         (* application's buffer freed *)
| EPrimFree                                  (* the primitive's buffer freed *)
| EFault (f : fault).                        (* undefined behaviour or abort *)

(* iu_client.h:21-33 ranap_ue_conn_ctx *)
Record ue := mkUe {
  u_ptr : ptr; u_rnc : ptr; u_conn : N; u_ra : ra_id;
  u_notif : bool; u_for : bool;              (* notification, free_on_release *)
  u_timer : option Z }.                      (* release_timeout, if armed *)
(* iu_client.c:72-80 ranap_iu_rnc, iu_client.c:51-55 iu_lac_rac_entry *)
Record rnc := mkRnc {
  n_ptr : ptr; n_id : rnc_id; n_addr : sccp_addr; n_areas : list rai }.
(* iu_client.c:94-96; the cache is iu_client.c:58-63 iu_new_ctx_entry *)
Record st := mkSt {
  s_ues : list ue; s_rncs : list rnc; s_cache : list (N * sccp_addr); s_next : N }.
(* iu_client.c:94-96 *)
Definition init : st := mkSt [] [] [] 0.

(* vocabulary: state of iu_client.c:94-96 and what was observed so far *)
Record world := mkW { w_st : st; w_tr : list eff }.   (* newest effect first *)

(* what iu_client.c calls: :670-813 (decoders), :390-410, 564, 590, 763, 830 (factory), :181-190 (SCCP), iu_client.h:64-71 (application) *)
Record env := mkEnv {
  dec_co : list N -> option message;      (* ranap_cn_rx_co: None = no callback *)
  dec_cl : list N -> option message;      (* ranap_cn_rx_cl *)
  dec_item : list N -> outcome (option N);(* ranap_decode_rab_setupormodifieditemies_fromlist *)
  enc_ok : dl_msg -> bool;                (* ranap_new_msg_*() != NULL *)
  send : list eff -> sccp_req -> Z;       (* osmo_sccp_user_sap_down etc. *)
  app : list eff -> list api;             (* what a callback calls *)
  app_rc : list eff -> Z;                 (* return value of the event callback *)
  has_event_cb : bool;                    (* global_iu_event_cb != NULL *)
  addr_dump : sccp_addr -> list N;        (* osmo_sccp_addr_dump *)
  ri_match : sccp_addr -> sccp_addr -> bool (* osmo_sccp_addr_ri_cmp(..) == 0 *)
}.

(* ------------------------------------------------------------------ *)
(* State and fault monad *)
(* vocabulary, not in /repo *)
Definition M (A : Type) := world -> world * option A.
(* vocabulary, not in /repo *)
Definition ret {A} (a : A) : M A := fun w => (w, Some a).
(* vocabulary: C statements one after the other *)
Definition bind {A B} (m : M A) (k : A -> M B) : M B :=
  fun w => let '(w', o) := m w in
           match o with Some a => k a w' | None => (w', None) end.
Notation "'let!' x := e 'in' k" := (bind e (fun x => k))
  (at level 200, x pattern, e at level 100, k at level 200, right associativity).
(* vocabulary: an observation *)
Definition emit (e : eff) : M unit := fun w => (mkW (w_st w) (e :: w_tr w), Some tt).
(* vocabulary: a crash *)
Definition fail {A} (f : fault) : M A := fun w => (mkW (w_st w) (EFault f :: w_tr w), None).
(* vocabulary: read iu_client.c:94-96 *)
Definition get : M st := fun w => (w, Some (w_st w)).
(* vocabulary: write iu_client.c:94-96 *)
Definition put_st (s : st) : M unit := fun w => (mkW s (w_tr w), Some tt).
(* vocabulary: what was observed so far *)
Definition trace : M (list eff) := fun w => (w, Some (w_tr w)).
(* vocabulary, not in /repo *)
Definition lift {A} (o : outcome A) : M A :=
  match o with Ok a => ret a | Fault f => fail f end.

(* write iu_client.c:95 *)
Definition set_ues (s : st) l := mkSt l (s_rncs s) (s_cache s) (s_next s).
(* write iu_client.c:96 *)
Definition set_rncs (s : st) l := mkSt (s_ues s) l (s_cache s) (s_next s).
(* write iu_client.c:94 *)
Definition set_cache (s : st) l := mkSt (s_ues s) (s_rncs s) l (s_next s).

(* Dereference of a UE context pointer *)
(* -> on a struct ranap_ue_conn_ctx of iu_client.h:21-33 *)
Definition live (s : st) (p : ptr) : option ue := find (fun u => (u_ptr u =? p)%N) (s_ues s).
(* -> on a struct ranap_ue_conn_ctx of iu_client.h:21-33 *)
Definition deref (p : ptr) : M ue :=
  let! s := get in
  match live s p with Some u => ret u | None => fail UseAfterFree end.

(* assignment to a member of iu_client.h:21-33 *)
Definition upd_ue (p : ptr) (f : ue -> ue) (l : list ue) : list ue :=
  map (fun u => if (u_ptr u =? p)%N then f u else u) l.
(* assignment to a member of iu_client.c:72-80 *)
Definition upd_rnc (p : ptr) (f : rnc -> rnc) (l : list rnc) : list rnc :=
  map (fun r => if (n_ptr r =? p)%N then f r else r) l.

Section Client.
Variable E : env.

(* osmo_sccp_user_sap_down / osmo_sccp_tx_unitdata_msg / osmo_sccp_tx_disconn *)
(* called at iu_client.c:181-190, 362-418, 550-598, 748-768, 825-833, 985-996 *)
Definition sccp_send (r : sccp_req) : M Z :=
  let! t := trace in
  let! _ := emit (ESccp r) in
  ret (send E t r).

(* msg = ranap_new_msg_*(); msg->l2h = msg->data: a NULL message crashes *)
(* iu_client.c:390-391, 410, 564, 590, 763, 830 *)
Definition encode (m : dl_msg) : M dl_msg :=
  if enc_ok E m then ret m else fail NullDeref.

(* iu_client.c:154-168 ue_conn_ctx_alloc *)
Definition ue_conn_ctx_alloc (r : ptr) (conn : N) : M ptr :=
  let! s := get in
  let p := s_next s in
  let u := mkUe p r conn (mkRaId 0 0 false 0 0) true false None in
  let! _ := put_st (mkSt (u :: s_ues s) (s_rncs s) (s_cache s) (p + 1)%N) in
  ret p.

(* iu_client.c:170-179 ue_conn_ctx_find *)
Definition ue_conn_ctx_find (s : st) (conn : N) : option ue :=
  find (fun u => (u_conn u =? conn)%N) (s_ues s).

(* iu_client.c:181-190 ranap_iu_free_ue *)
Definition free_ue (p : option ptr) : M unit :=
  match p with
  | None => ret tt
  | Some p =>
      let! u := deref p in
      let! _ := sccp_send (NDisconnectReq (u_conn u)) in
      let! s := get in
      put_st (set_ues s (filter (fun u => negb (u_ptr u =? p)%N) (s_ues s)))
  end.

(* iu_client.c:192-200 ue_conn_sccp_addr_add *)
Definition sccp_addr_add (conn : N) (a : sccp_addr) : M unit :=
  let! s := get in put_st (set_cache s ((conn, a) :: s_cache s)).
(* iu_client.c:202-210 ue_conn_sccp_addr_find *)
Definition sccp_addr_find (s : st) (conn : N) : option sccp_addr :=
  option_map snd (find (fun e => (fst e =? conn)%N) (s_cache s)).
(* iu_client.c:212-222 ue_conn_sccp_addr_del: removes the first match *)
Fixpoint cache_del (conn : N) (l : list (N * sccp_addr)) : list (N * sccp_addr) :=
  match l with
  | [] => []
  | e :: r => if (fst e =? conn)%N then r else e :: cache_del conn r
  end.
(* iu_client.c:212-222 ue_conn_sccp_addr_del *)
Definition sccp_addr_del (conn : N) : M unit :=
  let! s := get in put_st (set_cache s (cache_del conn (s_cache s))).

(* iu_client.c:224-238 iu_rnc_alloc *)
Definition rnc_alloc (id : rnc_id) (a : sccp_addr) : M ptr :=
  let! s := get in
  let p := s_next s in
  let! _ := put_st (mkSt (s_ues s) (mkRnc p id a [] :: s_rncs s) (s_cache s) (p + 1)%N) in
  ret p.

(* iu_client.c:243-266 iu_rnc_lac_rac_find: the RNC (the entry is the first
   matching one of its list) *)
Definition lac_rac_find (s : st) (r : rai) : option rnc :=
  find (fun n => existsb (fun e => rai_eqb e r) (n_areas n)) (s_rncs s).
(* iu_client.c:269-292 iu_rnc_lac_rac_find_legacy *)
Definition lac_rac_find_legacy (s : st) (lac rac : N) : option rnc :=
  find (fun n => existsb (fun e => (l_lac (r_lai e) =? lac)%N && (r_rac e =? rac)%N) (n_areas n))
       (s_rncs s).
(* iu_client.c:294-302 iu_rnc_id_find *)
Definition rnc_id_find (s : st) (id : rnc_id) : option rnc :=
  find (fun n => rnc_id_eqb (n_id n) id) (s_rncs s).
(* iu_client.c:304-309 same_sccp_addr: compares the printed form; the 255
   character cut of osmo_strlcpy is not modelled *)
Definition same_sccp_addr (a b : sccp_addr) : bool :=
  if list_eq_dec N.eq_dec (addr_dump E a) (addr_dump E b) then true else false.

(* llist_del of the first matching entry *)
(* llist_del in iu_client.c:311-356 iu_rnc_register *)
Fixpoint area_del (r : rai) (l : list rai) : list rai :=
  match l with
  | [] => []
  | e :: t => if rai_eqb e r then t else e :: area_del r t
  end.

(* ---------------- API functions ---------------- *)
(* iu_client.c:362-375 ranap_iu_rab_act *)
Definition rab_act (p : ptr) (m : list N) : M Z :=
  let! u := deref p in
  sccp_send (NDataReq (u_conn u) (DL_Raw m)).

(* iu_client.c:383-400 ranap_iu_tx_sec_mode_cmd *)
Definition tx_sec_mode_cmd (p : ptr) (ik ck : list N) (send_ck new_key : bool) : M Z :=
  let! m := encode (DL_SecModeCmd ik (if send_ck then Some ck else None) new_key) in
  let! u := deref p in
  sccp_send (NDataReq (u_conn u) m).

(* iu_client.c:402-418 ranap_iu_tx_common_id *)
Definition tx_common_id (p : ptr) (imsi : list N) : M Z :=
  let! u := deref p in
  let! m := encode (DL_CommonId imsi) in
  sccp_send (NDataReq (u_conn u) m).

(* iu_client.c:550-573 ranap_iu_tx *)
Definition iu_tx (buf : N) (dst : option ptr) (nas : list N) (sapi : N) : M Z :=
  match dst with
  | None => ret (- ENOTCONN)%Z
  | Some p =>
      let! u := deref p in
      let! _ := emit (ENasFree buf) in
      let! m := encode (DL_DirectTransfer sapi nas) in
      sccp_send (NDataReq (u_conn u) m)
  end.

(* iu_client.c:578-598 ranap_iu_tx_release *)
Definition tx_release (p : ptr) (c : option cause) : M Z :=
  let c := match c with Some c => c | None => cause_normal_release end in
  let! m := encode (DL_IuReleaseCmd c) in
  let! u := deref p in
  sccp_send (NDataReq (u_conn u) m).

(* iu_client.c:600-612 ranap_iu_tx_release_free *)
Definition tx_release_free (p : ptr) (c : option cause) (timeout : Z) : M unit :=
  let! _ := deref p in
  let! s := get in
  let! _ := put_st (set_ues s (upd_ue p
      (fun u => mkUe (u_ptr u) (u_rnc u) (u_conn u) (u_ra u) false true (u_timer u)) (s_ues s))) in
  let! rc := tx_release p c in
  let timeout := if (rc =? 0)%Z then timeout else 0%Z in
  let! s := get in
  put_st (set_ues s (upd_ue p
      (fun u => mkUe (u_ptr u) (u_rnc u) (u_conn u) (u_ra u) (u_notif u) (u_for u) (Some timeout))
      (s_ues s))).

(* iu_client.c:825-833 iu_tx_paging_cmd *)
Definition tx_paging_cmd (called : sccp_addr) (imsi : list N) (tmsi : option N)
    (is_ps : bool) (pcause : N) : M Z :=
  let! m := encode (DL_Paging imsi tmsi is_ps pcause) in
  sccp_send (NUnitdataReq called m).

(* iu_client.c:835-870 iu_page *)
Definition iu_page (imsi : list N) (tmsi : option N) (lac rac : N) (is_ps : bool) : M Z :=
  let! s := get in
  match lac_rac_find_legacy s lac rac with
  | Some n =>
      let! rc := tx_paging_cmd (n_addr n) imsi tmsi is_ps 0 in
      ret (if (rc =? 0)%Z then 1%Z else 0%Z)
  | None => ret 0%Z
  end.

(* iu_client.c:891-928 and :937-973, the loops of ranap_iu_page_cs2 / _ps2: one
   paging per RNC that has a matching entry, whatever the send result *)
Fixpoint page_loop (l : list rnc) (match_area : rai -> bool)
    (imsi : list N) (tmsi : option N) (is_ps : bool) (paged : Z) : M Z :=
  match l with
  | [] => ret paged
  | n :: rest =>
      if existsb match_area (n_areas n) then
        let! _ := tx_paging_cmd (n_addr n) imsi tmsi is_ps 0 in
        page_loop rest match_area imsi tmsi is_ps (paged + 1)%Z
      else page_loop rest match_area imsi tmsi is_ps paged
  end.
(* iu_client.c:891-928 ranap_iu_page_cs2 *)
Definition page_cs2 (imsi : list N) (tmsi : option N) (l : lai) : M Z :=
  let! s := get in page_loop (s_rncs s) (fun e => lai_eqb (r_lai e) l) imsi tmsi false 0.
(* iu_client.c:937-973 ranap_iu_page_ps2 *)
Definition page_ps2 (imsi : list N) (tmsi : option N) (r : rai) : M Z :=
  let! s := get in page_loop (s_rncs s) (fun e => rai_eqb e r) imsi tmsi true 0.

(* one API call *)
(* iu_client.h:73-103 *)
Definition run_api (a : api) : M unit :=
  let! _ := emit (EApi a) in
  let! rc :=
    match a with
    | ATx buf dst nas sapi => iu_tx buf dst nas sapi
    | ATxSecModeCmd p ik ck send_ck nk => tx_sec_mode_cmd p ik ck send_ck nk
    | ATxCommonId p imsi => tx_common_id p imsi
    | ATxRelease p c => tx_release p c
    | ATxReleaseFree p c t => let! _ := tx_release_free p c t in ret 0%Z
    | AFreeUe p => let! _ := free_ue p in ret 0%Z
    | ARabAct p m => rab_act p m
    | ARabDeact _ _ => ret (-1)%Z                       (* iu_client.c:377-381 *)
    | APageCs imsi tmsi lac => iu_page imsi tmsi lac 0 false   (* :873-876 *)
    | APagePs imsi tmsi lac rac => iu_page imsi tmsi lac rac true (* :879-882 *)
    | APageCs2 imsi tmsi l => page_cs2 imsi tmsi l
    | APagePs2 imsi tmsi r => page_ps2 imsi tmsi r
    end in
  emit (ERet rc).
(* several calls of iu_client.h:73-103 *)
Fixpoint run_apis (l : list api) : M unit :=
  match l with
  | [] => ret tt
  | a :: r => let! _ := run_api a in run_apis r
  end.
(* an application callback: the effect [e] is the invocation *)
(* calls through iu_client.h:64-71 made at iu_client.c:114-145, 451-537 *)
Definition callback (e : eff) : M unit :=
  let! _ := emit e in
  let! t := trace in
  run_apis (app E t).

(* iu_client.c:114-127 global_iu_event *)
Definition global_iu_event (p : option ptr) (ev : event) : M Z :=
  if negb (has_event_cb E) then ret 0%Z
  else
    let! ok := match p with
               | None => ret true
               | Some p => let! u := deref p in ret (u_notif u)
               end in
    if negb ok then ret 0%Z
    else
      let! _ := callback (EEvent p ev) in
      let! t := trace in
      ret (app_rc E t).

(* iu_client.c:129-145 global_iu_event_new_area; OSMO_RESERVED_RAC = 0xff *)
Definition OSMO_RESERVED_RAC : N := 255.
(* iu_client.c:129-145 global_iu_event_new_area *)
Definition event_new_area (id : rnc_id) (r : rai) : M unit :=
  let a := if (r_rac r =? OSMO_RESERVED_RAC)%N then NewLac (r_lai r) else NewRac r in
  let! _ := global_iu_event None (EvNewArea id a) in ret tt.

(* iu_client.c:311-356 iu_rnc_register *)
Definition rnc_register (id : rnc_id) (r : rai) (a : sccp_addr) : M ptr :=
  let! s := get in
  let! p :=
    match rnc_id_find s id with
    | Some n =>
        let! _ := (if same_sccp_addr (n_addr n) a then ret tt
                   else put_st (set_rncs s (upd_rnc (n_ptr n)
                          (fun n => mkRnc (n_ptr n) (n_id n) a (n_areas n)) (s_rncs s)))) in
        ret (n_ptr n)
    | None => rnc_alloc id a
    end in
  let! s := get in
  match lac_rac_find s r with
  | Some old =>
      if negb (n_ptr old =? p)%N then
        (* the entry keeps the identifier it was created with *)
        let e := match find (fun e => rai_eqb e r) (n_areas old) with
                 | Some e => e | None => r end in
        let l1 := upd_rnc (n_ptr old)
                    (fun n => mkRnc (n_ptr n) (n_id n) (n_addr n) (area_del r (n_areas n))) (s_rncs s) in
        let l2 := upd_rnc p
                    (fun n => mkRnc (n_ptr n) (n_id n) (n_addr n) (e :: n_areas n)) l1 in
        let! _ := put_st (set_rncs s l2) in
        let! _ := event_new_area id r in
        ret p
      else ret p
  | None =>
      let! _ := put_st (set_rncs s (upd_rnc p
                  (fun n => mkRnc (n_ptr n) (n_id n) (n_addr n) (r :: n_areas n)) (s_rncs s))) in
      let! _ := event_new_area id r in
      ret p
  end.

(* msgb_alloc(256) and msgb_put(msg, size): more than 256 octets abort *)
(* iu_client.c:459, 510 *)
Definition NAS_BUF_SIZE : nat := 256.
(* iu_client.c:485, 527 *)
Definition nas_put (nas : list N) : M unit :=
  if length nas <=? NAS_BUF_SIZE then ret tt else fail Assertion.

(* iu_client.c:451-504 ranap_handle_co_initial_ue *)
Definition handle_co_initial_ue (conn : N) (a : sccp_addr) (i : initial_ue) : M Z :=
  let! _ := emit EBufAlloc in
  let! (rc, ra) := lift (parse_lai (iu_lai i)) in
  if negb (rc =? 0)%Z then ret (-1)%Z
  else
    let! rac := match iu_rac i with
                | Some o => lift (asn1str_to_u8 o)
                | None => ret OSMO_RESERVED_RAC
                end in
    if (match iu_rac i with Some _ => true | None => false end) && (rac =? OSMO_RESERVED_RAC)%N
    then ret (-1)%Z
    else
      let ra := mkRaId (ra_mcc ra) (ra_mnc ra) (ra_mnc3 ra) (ra_lac ra) rac in
      let! g := lift (grnc_id_parse (iu_grnc i)) in
      match g with
      | None => ret (-1)%Z
      | Some id =>
          let! sai := lift (asn1str_to_u16 (iu_sac i)) in
          let! _ := nas_put (iu_nas i) in
          let! n := rnc_register id (gprs_rai_to_osmo ra) a in
          let! p := ue_conn_ctx_alloc n conn in
          let! s := get in
          let! _ := put_st (set_ues s (upd_ue p
             (fun u => mkUe (u_ptr u) (u_rnc u) (u_conn u) ra (u_notif u) (u_for u) (u_timer u))
             (s_ues s))) in
          let! _ := callback (ERecv p (iu_nas i) (Some ra) (Some sai)) in
          let! _ := emit EBufFree in
          ret 0%Z
      end.

(* iu_client.c:506-537 ranap_handle_co_dt; ctx is only passed on *)
Definition handle_co_dt (p : ptr) (d : direct_transfer) : M Z :=
  let! _ := emit EBufAlloc in
  let! r :=
    match dt_lai d with
    | None => ret (Some (None, None))
    | Some l =>
        let! (rc, ra) := lift (parse_lai l) in
        if negb (rc =? 0)%Z then ret None
        else
          let! rac := match dt_rac d with
                      | Some o => lift (asn1str_to_u8 o)
                      | None => ret (ra_rac ra) end in
          let! sai := match dt_sac d with
                      | Some o => let! v := lift (asn1str_to_u16 o) in ret (Some v)
                      | None => ret None end in
          ret (Some (Some (mkRaId (ra_mcc ra) (ra_mnc ra) (ra_mnc3 ra) (ra_lac ra) rac), sai))
    end in
  match r with
  | None => ret (-1)%Z
  | Some (ra, sai) =>
      let! _ := nas_put (dt_nas d) in
      let! _ := callback (ERecv p (dt_nas d) ra sai) in
      let! _ := emit EBufFree in
      ret 0%Z
  end.

(* iu_client.c:614-619 ranap_handle_co_iu_rel_req *)
Definition handle_co_iu_rel_req (p : ptr) (c : cause) : M Z :=
  let! _ := tx_release p (Some c) in ret 0%Z.

(* iu_client.c:621-645 ranap_handle_co_rab_ass_resp: only the first item *)
Definition handle_co_rab_ass_resp (p : ptr) (l : option (list (list N))) : M Z :=
  let! _ := deref p in                                  (* log line reads conn_id *)
  match l with
  | None => ret (-1)%Z
  | Some [] => fail NullDeref                           (* list.array[0] *)
  | Some (item :: _) =>
      let! d := lift (dec_item E item) in
      match d with
      | None => ret (-1)%Z
      | Some x => global_iu_event (Some p) (EvRabAssign x)
      end
  end.

(* iu_client.c:647-667 cn_ranap_handle_co_initial.  If the decoder produced
   IEs of another type than the (direction, procedure) the union would be
   misread: fault. *)
Definition handle_co_initial (conn : N) (a : sccp_addr) (m : message) : M unit :=
  if negb (m_dir m =? PR_initiatingMessage)%N || negb (m_proc m =? id_InitialUE_Message)%N
  then ret tt
  else match m_ies m with
       | I_InitialUE i => let! _ := handle_co_initial_ue conn a i in ret tt
       | _ => fail OobRead
       end.

(* iu_client.c:670-746 cn_ranap_handle_co *)
Definition handle_co (p : ptr) (m : message) : M unit :=
  let! _ :=
    if (m_dir m =? PR_initiatingMessage)%N then
      if (m_proc m =? id_InitialUE_Message)%N then ret (-1)%Z
      else if (m_proc m =? id_DirectTransfer)%N then
        match m_ies m with I_DirectTransfer d => handle_co_dt p d | _ => fail OobRead end
      else if (m_proc m =? id_ErrorIndication)%N then ret 0%Z
      else if (m_proc m =? id_Iu_ReleaseRequest)%N then
        match m_ies m with I_IuReleaseRequest c => handle_co_iu_rel_req p c | _ => fail OobRead end
      else ret (-1)%Z
    else if (m_dir m =? PR_successfulOutcome)%N then
      if (m_proc m =? id_SecurityModeControl)%N then global_iu_event (Some p) EvSecurityModeComplete
      else if (m_proc m =? id_Iu_Release)%N then global_iu_event (Some p) EvIuRelease
      else ret (-1)%Z
    else if (m_dir m =? PR_outcome)%N then
      if (m_proc m =? id_RAB_Assignment)%N then
        match m_ies m with I_RabAssignmentResponse l => handle_co_rab_ass_resp p l | _ => fail OobRead end
      else ret (-1)%Z
    else ret (-1)%Z in
  ret tt.

(* iu_client.c:748-768 ranap_handle_cl_reset_req: a NULL message is checked
   here (-ENOMEM, not distinguished) *)
Definition handle_cl_reset_req (calling : sccp_addr) (dom : N) (g : option ranap_grnc) : M Z :=
  if enc_ok E (DL_ResetAck dom g)
  then sccp_send (NUnitdataReq calling (DL_ResetAck dom g))
  else ret (-12)%Z.

(* iu_client.c:782-813 cn_ranap_handle_cl *)
Definition handle_cl (calling : sccp_addr) (m : message) : M unit :=
  let! _ :=
    if (m_dir m =? PR_initiatingMessage)%N then
      if (m_proc m =? id_Reset)%N then
        match m_ies m with I_Reset d g => handle_cl_reset_req calling d g | _ => fail OobRead end
      else if (m_proc m =? id_ErrorIndication)%N then ret 0%Z
      else ret (-1)%Z
    else ret (-1)%Z in
  ret tt.

(* iu_client.c:998-1009 ue_ctx_link_invalidated_free *)
Definition link_invalidated_free (p : ptr) : M unit :=
  let! u := deref p in
  let conn := u_conn u in
  let! _ := global_iu_event (Some p) EvLinkInvalidated in
  let! s := get in
  match ue_conn_ctx_find s conn with
  | None => ret tt
  | Some u' => if u_for u' then free_ue (Some (u_ptr u')) else ret tt
  end.

(* successor of a UE context in ue_conn_ctx_list; None is the list head *)
(* llist_for_each_entry_safe at iu_client.c:998-1009, 748-768 *)
Fixpoint succ_of (p : ptr) (l : list ue) : option ptr :=
  match l with
  | [] => None
  | u :: r => if (u_ptr u =? p)%N then match r with [] => None | v :: _ => Some (u_ptr v) end
              else succ_of p r
  end.

(* llist_for_each_entry_safe(ue_ctx, ue_ctx_tmp, &ue_conn_ctx_list, list) with
   the body of iu_client.c:1039-1043 / :1128-1132.  The successor is read before
   the body runs and dereferenced after it.  [fuel] only makes the recursion
   structural; running out is the fault OobRead. *)
Fixpoint invalidate_loop (fuel : nat) (cur : option ptr) (r : ptr) : M unit :=
  match cur with
  | None => ret tt
  | Some p =>
      match fuel with
      | O => fail OobRead
      | S fuel' =>
          let! u := deref p in
          let! s := get in
          let nxt := succ_of p (s_ues s) in
          let! _ := (if (u_rnc u =? r)%N then link_invalidated_free p else ret tt) in
          invalidate_loop fuel' nxt r
      end
  end.
(* llist_for_each_entry_safe at iu_client.c:998-1009 *)
Definition first_ue (s : st) : option ptr :=
  match s_ues s with [] => None | u :: _ => Some (u_ptr u) end.
(* iu_client.c:998-1009 *)
Definition invalidate_rnc (r : ptr) : M unit :=
  let! s := get in
  invalidate_loop (length (s_ues s)) (first_ue s) r.
(* the outer loop over rnc_list, which callbacks cannot change *)
(* iu_client.c:1011-1150 *)
Fixpoint invalidate_rncs (l : list rnc) (hit : rnc -> bool) : M unit :=
  match l with
  | [] => ret tt
  | n :: rest =>
      let! _ := (if hit n then invalidate_rnc (n_ptr n) else ret tt) in
      invalidate_rncs rest hit
  end.

(* iu_client.c:1011-1047 handle_notice_ind; sccp_types.h return causes *)
Definition CAUSE_SUBSYSTEM_CONGESTION : N := 2.
(* iu_client.c:1011-1047 *)
Definition CAUSE_NETWORK_CONGESTION : N := 6.
(* iu_client.c:1011-1047 handle_notice_ind *)
Definition handle_notice_ind (calling : sccp_addr) (c : N) : M unit :=
  if (c =? CAUSE_SUBSYSTEM_CONGESTION)%N || (c =? CAUSE_NETWORK_CONGESTION)%N then ret tt
  else
    let! s := get in
    invalidate_rncs (s_rncs s) (fun n => ri_match E (n_addr n) calling).

(* enum osmo_sccp_sp_status / osmo_sccp_rem_sccp_status *)
(* iu_client.c:1049-1150 *)
Inductive sp_status := SpInaccessible | SpCongested | SpAccessible | SpOther (n : N).
(* iu_client.c:1049-1150 *)
Inductive rem_status :=
  RemAvailable | RemUnavailableUnknown | RemUnequipped | RemInaccessible | RemCongested
| RemOther (n : N).
(* iu_client.c:1083-1114: (connected, disconnected) *)
Definition pcstate_decision (sp : sp_status) (rem : rem_status) : bool * bool :=
  let '(connected, disconnected) :=
    match sp with
    | SpAccessible => (true, false)
    | SpInaccessible => (false, true)
    | _ => (false, false)
    end in
  match rem with
  | RemAvailable => if negb disconnected then (true, disconnected) else (connected, disconnected)
  | RemUnavailableUnknown | RemUnequipped | RemInaccessible => (false, true)
  | _ => (connected, disconnected)
  end.
(* osmo_sccp_make_addr_pc_ssn and osmo_sccp_addr_cmp(PC|SSN) == 0 (external,
   trusted); OSMO_SCCP_SSN_RANAP = 142 *)
(* iu_client.c:1049-1150 *)
Definition SSN_RANAP : N := 142.
(* iu_client.c:1049-1150 *)
Definition pc_ssn_match (pc : N) (a : sccp_addr) : bool :=
  match a_pc a, a_ssn a with
  | Some p, Some s => (p =? pc)%N && (s =? SSN_RANAP)%N
  | _, _ => false
  end.
(* iu_client.c:1049-1150 handle_pcstate_ind; "connected" only logs *)
Definition handle_pcstate_ind (pc : N) (sp : sp_status) (rem : rem_status) : M unit :=
  let '(_, disconnected) := pcstate_decision sp rem in
  if disconnected then
    let! s := get in
    invalidate_rncs (s_rncs s) (fun n => pc_ssn_match pc (n_addr n))
  else ret tt.

(* SCCP primitives, timer expiry, API calls from the main loop *)
(* vocabulary: what can happen to the client from outside: iu_client.c:148-152, 1152-1260, iu_client.h:73-103 *)
Inductive op :=
| OConnectInd (conn : N) (calling : sccp_addr) (l2 : list N)
| OConnectCfm
| ODisconnectInd (conn : N) (l2 : list N)
| ODataInd (conn : N) (l2 : list N)
| OUnitdataInd (calling : sccp_addr) (l2 : list N)
| ONoticeInd (calling : sccp_addr) (c : N)
| OPcstateInd (pc : N) (sp : sp_status) (rem : rem_status)
| OStateInd
| OOtherPrim
| OTimer (ue : ptr)
| OApi (a : api).

(* ranap_cn_rx_co / ranap_cn_rx_cl with their handler *)
(* ranap_cn_rx_co called at iu_client.c:1152-1260 *)
Definition rx_co (l2 : list N) (h : message -> M unit) : M unit :=
  match dec_co E l2 with Some m => h m | None => ret tt end.
(* ranap_cn_rx_cl called at iu_client.c:1152-1260 *)
Definition rx_cl (l2 : list N) (h : message -> M unit) : M unit :=
  match dec_cl E l2 with Some m => h m | None => ret tt end.

(* iu_client.c:1152-1260 sccp_sap_up; an absent and an empty l2 are both [].
   The return value is not modelled. *)
Definition sccp_sap_up (o : op) : M unit :=
  let! _ :=
    match o with
    | OConnectInd conn calling l2 =>
        let! _ := sccp_send (NConnectResp conn) in
        match l2 with
        | [] => sccp_addr_add conn calling
        | _ => rx_co l2 (handle_co_initial conn calling)
        end
    | ODisconnectInd conn l2 =>
        let! _ := sccp_addr_del conn in
        let! s := get in
        match ue_conn_ctx_find s conn with
        | None => ret tt
        | Some u =>
            let! _ := (match l2 with [] => ret tt | _ => rx_co l2 (handle_co (u_ptr u)) end) in
            let! s := get in
            match ue_conn_ctx_find s conn with
            | None => ret tt
            | Some u => link_invalidated_free (u_ptr u)
            end
        end
    | ODataInd conn l2 =>
        let! s := get in
        match ue_conn_ctx_find s conn with
        | None =>
            match sccp_addr_find s conn with
            | None => ret tt
            | Some a =>
                let! _ := sccp_addr_del conn in
                rx_co l2 (handle_co_initial conn a)
            end
        | Some u => rx_co l2 (handle_co (u_ptr u))
        end
    | OUnitdataInd calling l2 => rx_cl l2 (handle_cl calling)
    | ONoticeInd calling c => handle_notice_ind calling c
    | OPcstateInd pc sp rem => handle_pcstate_ind pc sp rem
    | _ => ret tt
    end in
  emit EPrimFree.

(* iu_client.c:148-152 ue_conn_ctx_release_timeout_cb, called by the timer of a
   context whose timer is armed; osmo_timer disarms it first *)
Definition timer_fires (p : ptr) : M unit :=
  let! s := get in
  match live s p with
  | Some u =>
      match u_timer u with
      | Some _ =>
          let! _ := put_st (set_ues s (upd_ue p (fun u =>
             mkUe (u_ptr u) (u_rnc u) (u_conn u) (u_ra u) (u_notif u) (u_for u) None) (s_ues s))) in
          let! _ := global_iu_event (Some p) EvIuRelease in ret tt
      | None => ret tt                         (* not armed: cannot fire *)
      end
  | None => ret tt                             (* timer was deleted with the context *)
  end.

(* iu_client.c:148-152, 1152-1260, iu_client.h:73-103 *)
Definition exec (o : op) : M unit :=
  match o with
  | OTimer p => timer_fires p
  | OApi a => run_api a
  | _ => sccp_sap_up o
  end.

(* A history: stops at the first fault *)
(* a history of such steps from iu_client.c:1262-1276 on *)
Fixpoint run (l : list op) : M unit :=
  match l with
  | [] => ret tt
  | o :: r => let! _ := exec o in run r
  end.
(* iu_client.c:94-96, 1262-1276 *)
Definition w0 : world := mkW init [].
(* what a history leaves of iu_client.c:94-96 and what was observed *)
Definition reach (l : list op) : world := fst (run l w0).
End Client.
