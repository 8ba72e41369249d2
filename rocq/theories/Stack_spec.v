(* What users of the client rely on, in terms of octets on the wire. *)
From Verif Require Import Base Lai Aper Container RanapTab Dispatch Helpers_spec Factory_spec E2e_spec IuClient IuClient_spec Stack.
From Coq Require Import String List.
Local Open Scope list_scope.
Local Open Scope string_scope.
Local Open Scope list_scope.

(* the octets given to SCCP: on connections, and to addresses *)
Definition data_octets (t : list eff) : list (N * list N) :=
  flat_map (fun e => match e with
    | ESccp (NDataReq c m) => match octets_of m with Ok (Some b) => [(c, b)] | _ => [] end
    | _ => [] end) t.
Definition unit_octets (t : list eff) : list (sccp_addr * list N) :=
  flat_map (fun e => match e with
    | ESccp (NUnitdataReq a m) => match octets_of m with Ok (Some b) => [(a, b)] | _ => [] end
    | _ => [] end) t.
(* an application that calls nothing from its callbacks *)
Definition quiet (E : env) : Prop := forall t, IuClient.app E t = [].

(* the receive function hands out one message, of this kind *)
Definition carries (r : rx) (d p : N) (m : msgdef) (s : Container.ies) : Prop :=
  exists crit, x_calls r = [mkRmsg d p crit (Some (m, s))].
(* the receive function hands out nothing of these kinds (direction, procedure) *)
Definition only_other (r : rx) (l : list (N * N)) : Prop := forall g, In g (x_calls r) -> ~ In (g_dir g, g_proc g) l.
(* location areas and the like as values *)
Definition lai_v (plmn lac : list N) (ext : option val) : val := VSeq [Some (VOcts plmn); Some (VOcts lac); ext] [].
Definition sai_v (plmn lac sac : list N) (ext : option val) : val := VSeq [Some (VOcts plmn); Some (VOcts lac); Some (VOcts sac); ext] [].
Definition rnc_v (plmn : list N) (id : N) : val := VSeq [Some (VOcts plmn); Some (VInt (Z.of_N id))] [].
Definition usable_lac (l0 l1 : N) : Prop := be16 l0 l1 <> 0%N /\ be16 l0 l1 <> 65534%N.

(* First message on a connection that kills the process: an Initial UE Message
   that is in order up to the Global RNC-ID but has no SAI, or a NAS PDU of more
   than 256 octets *)
Inductive fatal_first (r : rx) : Prop :=
| fatal_initial s plmn l0 l1 ext :
    let m := M_RANAP_InitialUE_MessageIEs in
    carries r 1 19 m s ->
    assoc "id-LAI" (shown m s) = Some (Some (lai_v plmn [l0; l1] ext)) -> usable_lac l0 l1 ->
    assoc "id-RAC" (shown m s) <> Some (Some (VOcts [255%N])) ->
    assoc "id-GlobalRNC-ID" (shown m s) <> None ->
    (assoc "id-SAI" (shown m s) = None \/
     exists nas, assoc "id-NAS-PDU" (shown m s) = Some (Some (VOcts nas)) /\ 256 < List.length nas) ->
    fatal_first r.
(* Later messages that do: a Direct Transfer with a NAS PDU of more than 256 octets
   and no LAI or a usable one; an Iu Release Request without a cause; a RAB
   Assignment Response with an empty list of RABs that were set up *)
Inductive fatal_later (r : rx) : Prop :=
| fatal_transfer s nas :
    let m := M_RANAP_DirectTransferIEs in
    carries r 1 20 m s ->
    assoc "id-NAS-PDU" (shown m s) = Some (Some (VOcts nas)) -> 256 < List.length nas ->
    (assoc "id-LAI" (shown m s) = None \/
     exists plmn l0 l1 ext, assoc "id-LAI" (shown m s) = Some (Some (lai_v plmn [l0; l1] ext)) /\ usable_lac l0 l1) ->
    fatal_later r
| fatal_release s :
    let m := M_RANAP_Iu_ReleaseRequestIEs in
    carries r 1 11 m s -> assoc "id-Cause" (shown m s) = None -> fatal_later r
| fatal_rab s :
    let m := M_RANAP_RAB_AssignmentResponseIEs in
    carries r 4 0 m s ->
    assoc "id-RAB-SetupOrModifiedList" (shown m s) = Some (Some (VSeq [Some (VList [])] [])) -> fatal_later r.

(* the paging functions: subscriber, temporary identity, packet switched or not *)
Definition paging_call (a : api) : option (list N * option N * bool) :=
  match a with
  | APageCs i t _ | APageCs2 i t _ => Some (i, t, false)
  | APagePs i t _ _ | APagePs2 i t _ => Some (i, t, true)
  | _ => None
  end.
(* the cause of a release, which is normal release (NAS, 83) unless given *)
Definition release_cause (c : option IuClient.cause) : Factory_spec.cause :=
  match c with
  | Some c => Factory_spec.mkCause (IuClient.c_present c) (Z.of_N (IuClient.c_value c))
  | None => Factory_spec.mkCause 3 83
  end.
(* PLMN identity octets of six nibbles (TS 24.008 10.5.1.3: f is 15 for two-digit
   MNCs), the routing area the client makes of them, an LAC and a RAC, and the
   identity it makes of a Global RNC-ID.  For three-digit MNCs the two disagree
   about the order of the digits, and the routing area has them wrong (C11, C38). *)
Record nibbles := mkNib { n_m1 : N; n_m2 : N; n_m3 : N; n_f : N; n_n2 : N; n_n3 : N }.
Definition nib_ok (d : nibbles) : Prop :=
  (n_m1 d < 16 /\ n_m2 d < 16 /\ n_m3 d < 16 /\ n_f d < 16 /\ n_n2 d < 16 /\ n_n3 d < 16)%N.
Definition plmn_octs (d : nibbles) : list N := [n_m1 d + 16 * n_m2 d; n_m3 d + 16 * n_f d; n_n2 d + 16 * n_n3 d]%N.
Definition area_told (d : nibbles) (l0 l1 rac : N) : ra_id :=
  mkRaId (100 * n_m1 d + 10 * n_m2 d + n_m3 d)
    (if (n_f d =? 15)%N then (10 * n_n2 d + n_n3 d)%N else (100 * n_f d + 10 * n_n2 d + n_n3 d)%N) false (be16 l0 l1) rac.
Definition rnc_told (d : nibbles) (id : N) : rnc_id :=
  mkRncId (mkPlmn (100 * n_m1 d + 10 * n_m2 d + n_m3 d)
    (if (n_f d =? 15)%N then (10 * n_n2 d + n_n3 d)%N else (100 * n_n2 d + 10 * n_n3 d + n_f d)%N) (negb (n_f d =? 15)%N)) id.

(* the first message on a connection: the connection, the address and the octets
   of the message *)
Definition first_on (s : st) (o : op) (c : N) (a : sccp_addr) (data : list N) : Prop :=
  o = OConnectInd c a data /\ data <> [] \/
  o = ODataInd c data /\ ue_on s c = None /\ pending s c = Some a.
(* An Initial UE Message with these contents *)
Inductive good_initial (r : rx) (d : nibbles) (l0 l1 rac s0 s1 : N) (nas : list N) (g : nibbles) (id : N) : Prop :=
| good_initial_intro s ext p1 p2 ext' :
    let m := M_RANAP_InitialUE_MessageIEs in
    carries r 1 19 m s ->
    assoc "id-LAI" (shown m s) = Some (Some (lai_v (plmn_octs d) [l0; l1] ext)) -> nib_ok d -> usable_lac l0 l1 ->
    (assoc "id-RAC" (shown m s) = None /\ rac = 255%N \/ assoc "id-RAC" (shown m s) = Some (Some (VOcts [rac])) /\ rac <> 255%N) ->
    assoc "id-SAI" (shown m s) = Some (Some (sai_v p1 p2 [s0; s1] ext')) ->
    assoc "id-NAS-PDU" (shown m s) = Some (Some (VOcts nas)) -> List.length nas <= 256 ->
    assoc "id-GlobalRNC-ID" (shown m s) = Some (Some (rnc_v (plmn_octs g) id)) -> nib_ok g -> (id < 65536)%N ->
    good_initial r d l0 l1 rac s0 s1 nas g id.
(* A Direct Transfer with this NAS PDU, without an LAI or with one, and what is
   reported with it *)
Inductive good_transfer (r : rx) (nas : list N) : option ra_id -> option N -> Prop :=
| transfer_plain s :
    let m := M_RANAP_DirectTransferIEs in
    carries r 1 20 m s -> assoc "id-NAS-PDU" (shown m s) = Some (Some (VOcts nas)) ->
    assoc "id-LAI" (shown m s) = None -> good_transfer r nas None None
| transfer_area s d l0 l1 ext rac sai :
    let m := M_RANAP_DirectTransferIEs in
    carries r 1 20 m s -> assoc "id-NAS-PDU" (shown m s) = Some (Some (VOcts nas)) ->
    assoc "id-LAI" (shown m s) = Some (Some (lai_v (plmn_octs d) [l0; l1] ext)) -> nib_ok d -> usable_lac l0 l1 ->
    (assoc "id-RAC" (shown m s) = None /\ rac = 0%N \/ assoc "id-RAC" (shown m s) = Some (Some (VOcts [rac]))) ->
    (assoc "id-SAI" (shown m s) = None /\ sai = None \/
     exists p1 p2 s0 s1 ext', assoc "id-SAI" (shown m s) = Some (Some (sai_v p1 p2 [s0; s1] ext')) /\ sai = Some (be16 s0 s1)) ->
    good_transfer r nas (Some (area_told d l0 l1 rac)) sai.

(* a call sends these octets on the connection of the context, and nothing else *)
Definition sent_down E w a u b : Prop :=
  exists t, added (w_tr w) (w_tr (fst (run_api (stack E) a w))) t /\ snd (run_api (stack E) a w) = Some tt /\
    data_octets t = [(u_conn u, b)] /\ unit_octets t = [].

(* arguments that the functions of the API can be given *)
Definition args_ok (a : api) : Prop :=
  match a with
  | ATx _ _ nas _ => bytes_ok nas = true
  | ATxSecModeCmd _ ik ck send_ck _ => key_ok ik /\ (send_ck = true -> key_ok ck)
  | ATxCommonId _ imsi => forallb is_digit imsi = true /\ 5 <= List.length imsi <= 16
  | ATxRelease _ c | ATxReleaseFree _ c _ => cause_ok (release_cause c)
  | APageCs imsi tmsi _ | APageCs2 imsi tmsi _ | APagePs imsi tmsi _ _ | APagePs2 imsi tmsi _ =>
      forallb is_digit imsi = true /\ 5 <= List.length imsi <= 16 /\ opt_ok (fun t => (t < 2 ^ 32)%N) tmsi
  | AFreeUe _ | ARabAct _ _ | ARabDeact _ _ => True
  end.
(* The process died inside a call by the application that it should not have
   made: with a context that is gone, or with arguments that are not in order.
   The buffer with the NAS PDU may have been freed in between. *)
Definition misused (w : world) : Prop :=
  exists f a t t', w_tr w = EFault f :: t ++ EApi a :: t' /\ (t = [] \/ exists b, t = [ENasFree b]) /\
    ((exists p, api_target a = Some p /\ live (w_st w) p = None) \/ ~ args_ok a).
(* what comes from the radio network kills the process *)
Definition kills (s : st) (o : op) : Prop :=
  match o with
  | OConnectInd _ _ data => data <> [] /\ fatal_first (rx_cn_co data)
  | ODataInd c data =>
      match ue_on s c with
      | Some _ => fatal_later (rx_cn_co data)
      | None => pending s c <> None /\ fatal_first (rx_cn_co data)
      end
  | ODisconnectInd c data => ue_on s c <> None /\ data <> [] /\ fatal_later (rx_cn_co data)
  | _ => False
  end.
