(* What a user of the Iu client relies on, in terms of the history of SCCP
   primitives and API calls.  No definition here follows the client's own data
   structures except to read the lists of its state. *)
From Verif Require Import Base Lai IuClient.

(* ---------------- registrations ---------------- *)
(* The content of an Initial UE Message that the client takes: a LAI, RAC (0xff
   stands for none) and Global RNC-ID that parse, a SAC and a NAS PDU that fits *)
Record accepted := mkAcc { acc_id : rnc_id; acc_ra : ra_id; acc_sai : N; acc_nas : list N }.
Definition rac_of (o : option (list N)) : option N :=
  match o with
  | None => Some 255%N
  | Some (x :: _) => if (x =? 255)%N then None else Some x
  | Some [] => None
  end.
Definition acceptable (m : message) : option accepted :=
  match m_ies m with
  | I_InitialUE i =>
      if (m_dir m =? PR_initiatingMessage)%N && (m_proc m =? id_InitialUE_Message)%N
         && (length (iu_nas i) <=? 256)
      then match parse_lai (iu_lai i), grnc_id_parse (iu_grnc i), rac_of (iu_rac i), iu_sac i with
           | Ok (0%Z, ra), Ok (Some id), Some rac, s0 :: s1 :: _ =>
               Some (mkAcc id (mkRaId (ra_mcc ra) (ra_mnc ra) (ra_mnc3 ra) (ra_lac ra) rac)
                           (be16 s0 s1) (iu_nas i))
           | _, _, _, _ => None
           end
      else None
  | _ => None
  end.

(* the UE context of a connection, the address of an unanswered empty CR *)
Definition ue_on (s : st) (conn : N) : option ue :=
  find (fun u => (u_conn u =? conn)%N) (s_ues s).
Definition pending (s : st) (conn : N) : option sccp_addr :=
  option_map snd (find (fun e => (fst e =? conn)%N) (s_cache s)).

(* An operation that opens a UE connection: the connection, the peer's address
   and the content of the Initial UE Message *)
Record opening := mkOpen { op_conn : N; op_addr : sccp_addr; op_acc : accepted }.
Definition opens (E : env) (s : st) (o : op) : option opening :=
  match o with
  | OConnectInd c a (x :: l2) =>
      match dec_co E (x :: l2) with
      | Some m => option_map (mkOpen c a) (acceptable m)
      | None => None
      end
  | ODataInd c l2 =>
      match ue_on s c, pending s c, dec_co E l2 with
      | None, Some a, Some m => option_map (mkOpen c a) (acceptable m)
      | _, _, _ => None
      end
  | _ => None
  end.

(* The area a message names, in the nested form of the API *)
Definition area_of (r : ra_id) : rai :=
  {| r_lai := {| l_plmn := {| p_mcc := ra_mcc r; p_mnc := ra_mnc r; p_mnc3 := ra_mnc3 r |}; l_lac := ra_lac r |}; r_rac := ra_rac r |}.
(* A registration: this RNC served this area from this address *)
Record reg := mkReg { g_id : rnc_id; g_area : rai; g_addr : sccp_addr }.
Definition reg_of (o : opening) : reg :=
  mkReg (acc_id (op_acc o)) (area_of (acc_ra (op_acc o))) (op_addr o).
Definition registers (E : env) (s : st) (o : op) : list reg :=
  match opens E s o with Some x => [reg_of x] | None => [] end.

(* All registrations of a history, oldest first *)
Fixpoint registrations_from (E : env) (l : list op) (w : world) : list reg :=
  match l with
  | [] => []
  | o :: r =>
      registers E (w_st w) o ++
      match exec E o w with
      | (w', Some _) => registrations_from E r w'
      | (_, None) => []                             (* crashed *)
      end
  end.
Definition registrations (E : env) (l : list op) : list reg := registrations_from E l w0.

(* The last registration of an area, of an RNC *)
Definition last_of_area (h : list reg) (r : rai) : option reg :=
  find (fun g => rai_eqb (g_area g) r) (rev h).
Definition last_of_rnc (h : list reg) (id : rnc_id) : option reg :=
  find (fun g => rnc_id_eqb (g_id g) id) (rev h).

(* According to the registrations, the RNC now serves part of the location area *)
Definition now_serves (h : list reg) (id : rnc_id) (l : lai) : Prop :=
  exists r g, lai_eqb (r_lai r) l = true /\ last_of_area h r = Some g /\
              rnc_id_eqb (g_id g) id = true.

(* All (area) entries of the client's table *)
Definition all_areas (s : st) : list rai := flat_map n_areas (s_rncs s).
(* RNC [n] is recorded as serving area [r] *)
Definition serves (s : st) (n : rnc) (r : rai) : Prop :=
  In n (s_rncs s) /\ exists e, In e (n_areas n) /\ rai_eqb e r = true.

(* ---------------- reading a trace ---------------- *)
(* what an operation added to the trace, oldest first *)
Definition added (before after : list eff) (t : list eff) : Prop := after = rev t ++ before.
Definition new_area_events (t : list eff) : list (rnc_id * area) :=
  flat_map (fun e => match e with EEvent _ (EvNewArea i a) => [(i, a)] | _ => [] end) t.
Definition sends (t : list eff) : list sccp_req :=
  flat_map (fun e => match e with ESccp r => [r] | _ => [] end) t.
Definition events (t : list eff) : list (option ptr * event) :=
  flat_map (fun e => match e with EEvent p v => [(p, v)] | _ => [] end) t.
Definition recvs (t : list eff) : list (ptr * list N * option ra_id * option N) :=
  flat_map (fun e => match e with ERecv p n r s => [(p, n, r, s)] | _ => [] end) t.
Definition faults (t : list eff) : list fault :=
  flat_map (fun e => match e with EFault f => [f] | _ => [] end) t.
Definition count (f : eff -> bool) (t : list eff) : nat := length (filter f t).

(* ---------------- connections ---------------- *)
(* The connection an operation is about *)
Definition conn_of (o : op) : option N :=
  match o with
  | OConnectInd c _ _ | ODisconnectInd c _ | ODataInd c _ => Some c
  | _ => None
  end.
(* A Direct Transfer that the client takes: the area and SAI it reports *)
Definition dt_info (d : direct_transfer) : option (option ra_id * option N) :=
  match dt_lai d with
  | None => Some (None, None)
  | Some l =>
      match parse_lai l with
      | Ok (0%Z, ra) =>
          match (match dt_rac d with None => Some (ra_rac ra) | Some (x :: _) => Some x | Some [] => None end),
                (match dt_sac d with None => Some None | Some (x :: y :: _) => Some (Some (be16 x y)) | Some _ => None end) with
          | Some rac, Some sai =>
              Some (Some (mkRaId (ra_mcc ra) (ra_mnc ra) (ra_mnc3 ra) (ra_lac ra) rac), sai)
          | _, _ => None
          end
      | _ => None
      end
  end.
(* SCCP never opens a connection under the id of a UE context that still exists *)
Definition fresh_conns (E : env) (l : list op) : Prop :=
  forall l1 c a d l2, l = l1 ++ OConnectInd c a d :: l2 -> ue_on (w_st (reach E l1)) c = None.
(* In a LINK_INVALIDATED callback the application frees at most the context the
   callback is about *)
Definition frees_only_subject (E : env) : Prop :=
  forall p t q, In (AFreeUe (Some q)) (app E (EEvent (Some p) EvLinkInvalidated :: t)) -> q = p.
(* In a LINK_INVALIDATED callback the application frees no context that was
   created before the one the callback is about.  Contexts are numbered in the
   order of their creation. *)
Definition frees_none_older (E : env) : Prop :=
  forall p t q, In (AFreeUe (Some q)) (app E (EEvent (Some p) EvLinkInvalidated :: t)) -> (p <= q)%N.
(* In a LINK_INVALIDATED callback the application neither frees nor releases
   another context *)
Definition touches_only_subject (E : env) : Prop :=
  frees_only_subject E /\
  forall p t q c d, In (ATxReleaseFree q c d) (app E (EEvent (Some p) EvLinkInvalidated :: t)) -> q = p.
Definition link_events (t : list eff) : list ptr :=
  flat_map (fun e => match e with EEvent (Some p) EvLinkInvalidated => [p] | _ => [] end) t.
(* the context an API call is given *)
Definition api_target (a : api) : option ptr :=
  match a with
  | ATx _ p _ _ | AFreeUe p => p
  | ATxSecModeCmd p _ _ _ _ | ATxCommonId p _ | ATxRelease p _ | ATxReleaseFree p _ _ | ARabAct p _ => Some p
  | _ => None
  end.
(* the addresses remembered for a connection, newest first *)
Definition remembered (s : st) (c : N) : list sccp_addr :=
  map snd (filter (fun e => (fst e =? c)%N) (s_cache s)).
(* the application freed the context or asked for its release *)
Definition touched_b (p : ptr) (t : list eff) : bool :=
  existsb (fun e => match e with
    | EApi (AFreeUe (Some q)) => (q =? p)%N
    | EApi (ATxReleaseFree q _ _) => (q =? p)%N
    | _ => false end) t.
(* the state in which the remembered address of a connection is dropped *)
Definition forget (c : N) (w : world) : world :=
  mkW (set_cache (w_st w) (cache_del c (s_cache (w_st w)))) (w_tr w).

(* ---------------- loss of a peer ---------------- *)
(* status values that say that the peer cannot be reached *)
Definition declares_loss (sp : sp_status) (rem : rem_status) : Prop :=
  sp = SpInaccessible \/ rem = RemUnavailableUnknown \/ rem = RemUnequipped \/ rem = RemInaccessible.
(* an indication that declares this RNC lost; return causes 2 and 6 are
   congestion, 142 is the subsystem number of RANAP *)
Definition hits (E : env) (o : op) (n : rnc) : Prop :=
  match o with
  | ONoticeInd calling c => c <> 2%N /\ c <> 6%N /\ ri_match E (n_addr n) calling = true
  | OPcstateInd pc sp rem =>
      declares_loss sp rem /\ a_pc (n_addr n) = Some pc /\ a_ssn (n_addr n) = Some 142%N
  | _ => False
  end.
Definition is_loss_ind (o : op) : bool :=
  match o with ONoticeInd _ _ | OPcstateInd _ _ _ => true | _ => false end.

(* ---------------- buffers ---------------- *)
(* a first message that is an Initial UE Message the client refuses, a Direct
   Transfer it refuses *)
Definition is_none {A} (o : option A) : bool := match o with None => true | Some _ => false end.
Definition refused_initial (m : message) : bool :=
  (m_dir m =? PR_initiatingMessage)%N && (m_proc m =? id_InitialUE_Message)%N && is_none (acceptable m).
Definition refused_dt (m : message) : bool :=
  (m_dir m =? PR_initiatingMessage)%N && (m_proc m =? id_DirectTransfer)%N &&
  match m_ies m with I_DirectTransfer d => is_none (dt_info d) | _ => false end.
Definition refuses (E : env) (s : st) (o : op) : bool :=
  match o with
  | OConnectInd _ _ (x :: d) => match dec_co E (x :: d) with Some m => refused_initial m | None => false end
  | ODataInd c d =>
      match dec_co E d with
      | None => false
      | Some m =>
          match ue_on s c, pending s c with
          | Some _, _ => refused_dt m
          | None, Some _ => refused_initial m
          | None, None => false
          end
      end
  | ODisconnectInd c (x :: d) =>
      match ue_on s c, dec_co E (x :: d) with Some _, Some m => refused_dt m | _, _ => false end
  | _ => false
  end.
Definition is_alloc (e : eff) : bool := match e with EBufAlloc => true | _ => false end.
Definition is_free (e : eff) : bool := match e with EBufFree => true | _ => false end.

(* ---------------- downlink ---------------- *)
(* the message a connection oriented send function sends *)
Definition api_msg (a : api) : option (ptr * dl_msg) :=
  match a with
  | ATx _ (Some p) nas sapi => Some (p, DL_DirectTransfer sapi nas)
  | ATxSecModeCmd p ik ck b nk => Some (p, DL_SecModeCmd ik (if b then Some ck else None) nk)
  | ATxCommonId p imsi => Some (p, DL_CommonId imsi)
  | ATxRelease p c | ATxReleaseFree p c _ =>
      Some (p, DL_IuReleaseCmd (match c with Some c => c | None => mkCause 3 83 end))
  | _ => None
  end.
