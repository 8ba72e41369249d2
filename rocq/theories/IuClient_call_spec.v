(* What each API call does and what each uplink message tells the application,
   as tables.  Only the vocabulary of the client's state and trace is used. *)
From Verif Require Import Base Lai IuClient IuClient_spec.

(* the event a message on the connection of a UE context stands for:
   successful outcome (2) of Security Mode Control (6) and of Iu Release (1),
   outcome (4) of RAB Assignment (0), whose first set-up item is reported *)
Definition told (E : env) (m : message) : option event :=
  if ((m_dir m =? 2) && (m_proc m =? 6))%N then Some EvSecurityModeComplete
  else if ((m_dir m =? 2) && (m_proc m =? 1))%N then Some EvIuRelease
  else if ((m_dir m =? 4) && (m_proc m =? 0))%N then
    match m_ies m with
    | I_RabAssignmentResponse (Some (i :: _)) =>
        match dec_item E i with Ok (Some x) => Some (EvRabAssign x) | _ => None end
    | _ => None
    end
  else None.
(* what a message on the connection of a UE context gives to the receive callback:
   the NAS PDU of a Direct Transfer (initiating message 1, procedure 20), if it is no
   longer than 256 octets and its area, if it names one, can be read *)
Definition delivers (m : message) : option (list N * option ra_id * option N) :=
  if ((m_dir m =? 1) && (m_proc m =? 20))%N then
    match m_ies m with
    | I_DirectTransfer d =>
        match dt_info d with
        | Some (ra, sai) => if length (dt_nas d) <=? 256 then Some (dt_nas d, ra, sai) else None
        | None => None
        end
    | _ => None
    end
  else None.
(* Direct Transfer (initiating 1, procedure 20), Iu Release Request (1, 11) *)
Definition handled (m : message) : bool :=
  existsb (fun k => (m_dir m =? fst k)%N && (m_proc m =? snd k)%N)
    [(1, 20); (1, 11); (2, 6); (2, 1); (4, 0)]%N.

(* A call about a UE context: what is released before the primitive is sent, the
   primitive, what becomes of the context and what is returned, both depending
   on the answer of SCCP *)
Record call := mkCall {
  k_before : list eff; k_req : sccp_req; k_ctx : Z -> ue -> option ue; k_ret : Z -> Z }.
Definition keep (_ : Z) (u : ue) : option ue := Some u.
Definition call_of (u : ue) (a : api) : option call :=
  let data m := mkCall [] (NDataReq (u_conn u) m) keep (fun rc => rc) in
  let release c := DL_IuReleaseCmd (match c with Some c => c | None => mkCause 3 83 end) in
  match a with
  | ATx buf (Some _) nas sapi =>
      Some (mkCall [ENasFree buf] (NDataReq (u_conn u) (DL_DirectTransfer sapi nas)) keep (fun rc => rc))
  | ATxSecModeCmd _ ik ck send_ck new_key =>
      Some (data (DL_SecModeCmd ik (if send_ck then Some ck else None) new_key))
  | ATxCommonId _ imsi => Some (data (DL_CommonId imsi))
  | ATxRelease _ c => Some (data (release c))
  | ARabAct _ m => Some (data (DL_Raw m))
  | ATxReleaseFree _ c timeout =>
      Some (mkCall [] (NDataReq (u_conn u) (release c))
        (fun rc u => Some (mkUe (u_ptr u) (u_rnc u) (u_conn u) (u_ra u) false true
                             (Some (if (rc =? 0)%Z then timeout else 0%Z))))
        (fun _ => 0%Z))
  | AFreeUe (Some _) =>
      Some (mkCall [] (NDisconnectReq (u_conn u)) (fun _ _ => None) (fun _ => 0%Z))
  | _ => None
  end.
(* every context with this pointer is replaced *)
Definition change (p : ptr) (f : ue -> option ue) (s : st) : st :=
  set_ues s (flat_map (fun v => if (u_ptr v =? p)%N
                                then match f v with Some v' => [v'] | None => [] end
                                else [v]) (s_ues s)).

(* According to the registrations, this address belongs to an RNC that now
   serves an area with this LAC and RAC, in any network *)
Definition serves_lac_rac (E : env) (h : list reg) (lac rac : N) (addr : sccp_addr) : Prop :=
  exists r g g', l_lac (r_lai r) = lac /\ r_rac r = rac /\
    last_of_area h r = Some g /\ last_of_rnc h (g_id g) = Some g' /\
    addr_dump E addr = addr_dump E (g_addr g').
