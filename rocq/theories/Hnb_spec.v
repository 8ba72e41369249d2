(* What users of the home NodeB emulator rely on, in terms of the octets it is sent
   and sends and of what it reports. *)
From Verif Require Import Base Helpers_spec Aper Container RanapTypes RuaTypes HnbapTypes RanapTab RuaTab HnbapTab
  Dispatch Factory_spec RuaFactory_spec E2e_spec Stack_spec Hnb.
From Coq Require Import String List Permutation.
Local Open Scope list_scope.
Local Open Scope string_scope.
Local Open Scope list_scope.

(* a RANAP message in a RUA Direct Transfer, or in a Connectionless Transfer *)
Definition on_connection (b ranap : list N) : Prop :=
  exists is_ps id, holds T_RUA_RUA_PDU b 1 2 0 M_RUA_DirectTransferIEs (transfer_ies is_ps id ranap).
Definition unconnected (b ranap : list N) : Prop :=
  holds T_RUA_RUA_PDU b 1 4 0 M_RUA_ConnectionlessTransferIEs [message_ie ranap].
(* the SCTP payload protocol identifiers of RUA and HNBAP (IANA) *)
Notation rua_ppid := 19%N (only parsing).
Notation hnbap_ppid := 20%N (only parsing).
(* octets received on the RUA stream are accepted, leave the state alone and have
   these effects *)
Definition rua_gives (E : henv) (h : hnb) (b : list N) (e : list heff) : Prop :=
  exists a f, read_cb E h (RData rua_ppid b) = Ok (mkHres 0 h e a f).
(* [b] is a RUA Direct Transfer on channel [c] with a RANAP message of this kind
   with exactly these IEs *)
Definition reply (c : chan) (b : list N) (d p : N) (crit : Z) (m : msgdef) (l : list (string * val)) : Prop :=
  exists ranap, holds T_RANAP_RANAP_PDU ranap d p crit m l /\
    holds T_RUA_RUA_PDU b 1 2 0 M_RUA_DirectTransferIEs (transfer_ies (ch_ps c) (ch_conn c) ranap).
(* ... in particular a NAS message in a RANAP Direct Transfer *)
Definition nas_reply (c : chan) (b nas : list N) : Prop :=
  reply c b 1 20 1 M_RANAP_DirectTransferIEs [("id-NAS-PDU", VOcts nas); ("id-SAPI", VEnum 0)].
(* the RANAP message has this NAS PDU *)
Definition nas_in (ranap nas : list N) : Prop :=
  exists s, carries (rx_cn_co ranap) 1 20 M_RANAP_DirectTransferIEs s /\
    assoc "id-NAS-PDU" (shown M_RANAP_DirectTransferIEs s) = Some (Some (VOcts nas)).
(* A mobility management message (TS 24.008 10.1: protocol discriminator in the
   low half of the first octet, message type in the low six bits of the second) *)
Definition mm (nas : list N) (mt : N) : Prop :=
  exists x y r, nas = x :: y :: r /\ (x mod 16 = 5)%N /\ (y mod 64 = mt)%N.
(* the library's SRES has four octets *)
Definition sres_ok (E : henv) : Prop := forall r, List.length (he_sres E r) = 4 /\ bytes_ok (he_sres E r) = true.
(* the circuit switched channel is one *)
Definition chan_ok (h : hnb) : Prop := forall c, h_cs h = Some c -> ch_ps c = false.
(* what is sent *)
Definition sent (e : list heff) : list (N * list N) := flat_map (fun x => match x with HSend p b => [(p, b)] | _ => [] end) e.
(* NAS messages that kill the process: a Location Updating Accept that is too short
   for a location area, or in which the library's parser finds a mobile identity
   (0x17) but no short network name (0x45), and an MM Information with an empty short
   or full (0x43) network name; the tags are those of 3GPP TS 24.008 *)
Inductive fatal_nas (E : henv) (nas : list N) : Prop :=
| fatal_short : mm nas 0x02 -> (List.length nas < 7)%nat -> fatal_nas E nas
| fatal_accept tp : mm nas 0x02 -> (7 <= List.length nas)%nat -> he_tlv E (skipn 2 nas) = Some tp -> tp 0x17%N <> None ->
    (tp 0x45%N = None \/ tp 0x45%N = Some []) -> fatal_nas E nas
| fatal_info tp : mm nas 0x32 -> he_tlv E (skipn 2 nas) = Some tp ->
    (tp 0x45%N = Some [] \/ tp 0x43%N = Some []) -> fatal_nas E nas.
(* RANAP messages that do: a NAS message of that kind, if there is a circuit
   switched channel; on a little-endian host a Security Mode Complete with an
   encryption algorithm other than 0 and a Security Mode Reject with a cause other
   than number 0 *)
Inductive fatal_ranap (E : henv) (h : hnb) (ranap : list N) : Prop :=
| fatal_by_nas nas : h_cs h <> None -> nas_in ranap nas -> fatal_nas E nas -> fatal_ranap E h ranap
| fatal_complete s z : let m := M_RANAP_SecurityModeCompleteIEs in
    he_le E = true -> carries (rx_cn_co ranap) 2 6 m s -> assoc "id-ChosenEncryptionAlgorithm" (shown m s) = Some (Some (VInt z)) -> (1 <= z)%Z ->
    fatal_ranap E h ranap
| fatal_reject s i z : let m := M_RANAP_SecurityModeRejectIEs in
    he_le E = true -> carries (rx_cn_co ranap) 3 6 m s -> assoc "id-Cause" (shown m s) = Some (Some (VChoice i (VInt z))) -> (1 <= z)%Z ->
    fatal_ranap E h ranap.
(* Octets that do: such a message in a RUA Direct Transfer (in any direction); a UE
   Register Accept (in any direction) with an IMSI but without a Context-ID *)
Inductive fatal (E : henv) (h : hnb) : N -> list N -> Prop :=
| fatal_rua data d cr o ranap : pdu_in T_RUA_RUA_PDU data = Some (d, 2%N, cr, o) ->
    let r := decode_msg M_RUA_DirectTransferIEs o in d_ok r = true ->
    assoc "id-RANAP-Message" (shown M_RUA_DirectTransferIEs (d_ies r)) = Some (Some (VOcts ranap)) ->
    fatal_ranap E h ranap -> fatal E h rua_ppid data
| fatal_hnbap data d cr o imsi : pdu_in T_HNBAP_HNBAP_PDU data = Some (d, 3%N, cr, o) ->
    let r := decode_msg M_HNBAP_UERegisterAcceptIEs o in d_ok r = true ->
    assoc "id-UE-Identity" (shown M_HNBAP_UERegisterAcceptIEs (d_ies r)) = Some (Some (VChoice 0 (VOcts imsi))) ->
    assoc "id-Context-ID" (shown M_HNBAP_UERegisterAcceptIEs (d_ies r)) = None -> fatal E h hnbap_ppid data.
Definition faults {A} (x : outcome A) : Prop := exists f, x = Fault f.
(* an HNBAP message of this procedure, in any direction, whose IEs are [s] *)
Definition hnbap_in (b : list N) (p : N) (m : msgdef) (s : ies) : Prop :=
  exists d cr o lost, pdu_in T_HNBAP_HNBAP_PDU b = Some (d, p, cr, o) /\ decode_msg m o = mkDres true s lost.
(* ... with one value *)
Definition has_ie (m : msgdef) (s : ies) (k : string) (v : val) : Prop := assoc k (shown m s) = Some (Some v).
(* an HNB Register Reject *)
Definition register_reject (b : list N) : Prop :=
  exists cr o, pdu_in T_HNBAP_HNBAP_PDU b = Some (3, 1, cr, o)%N /\ d_ok (decode_msg M_HNBAP_HNBRegisterRejectIEs o) = true.
(* the requests: TS 25.469 9.1.3, 9.1.6, 9.1.7 with the values of hnb-test *)
Definition register_ies : list (string * val) :=
  [("id-HNB-Identity", VSeq [Some (VOcts [65; 84; 101; 115; 116; 72; 78; 66; 64]%N); None] []);
   ("id-HNB-Location-Information", VSeq [None; None; None] []);
   ("id-PLMNidentity", VOcts [0x09; 0xf1; 0x99]%N); ("id-CellIdentity", VBits (to_bits 28 0xadceaab));
   ("id-LAC", VOcts [0xc0; 0xfe]%N); ("id-RAC", VOcts [0x42]%N); ("id-SAC", VOcts [0xab; 0xab]%N)].
Definition ue_register_ies (imsi : list N) : list (string * val) :=
  [("id-UE-Identity", VChoice 0 (VOcts imsi)); ("id-Registration-Cause", VEnum 1);
   ("id-UE-Capabilities", VSeq [Some (VEnum 3); Some (VEnum 1); None] [])].
(* a Location Updating Request for 262-02 with an IMSI: TS 24.008 9.2.15 *)
Definition lu_octets : list N :=
  [0x05; 0x08; 0x70; 0x62; 0xf2; 0x30; 0xff; 0xf3; 0x57; 0x08; 0x29; 0x26; 0x24; 0x10; 0x32; 0x54; 0x76; 0x98; 0x33; 0x03; 0x57; 0x18; 0xb2]%N.
(* [b] asks for a connection for a domain under a context identifier, with the
   Initial UE Message with the Location Updating Request of hnb-test *)
Definition connect_req (le is_ps : bool) (id : N) (b : list N) : Prop :=
  exists ranap, holds T_RUA_RUA_PDU b 1 1 0 M_RUA_ConnectIEs (connect_ies is_ps id ranap) /\
    let plmn := [0x09; 0x01; 0x99]%N in let area := if le then [0x42; 0x23]%N else [0x23; 0x42]%N in
    holds T_RANAP_RANAP_PDU ranap 1 19 1 M_RANAP_InitialUE_MessageIEs
      [("id-CN-DomainIndicator", VEnum (if is_ps then 1 else 0));
       ("id-LAI", VSeq [Some (VOcts plmn); Some (VOcts area); None] []);
       ("id-SAI", VSeq [Some (VOcts plmn); Some (VOcts area); Some (VOcts area); None] []);
       ("id-NAS-PDU", VOcts lu_octets); ("id-IuSigConId", VBits (to_bits 24 id));
       ("id-GlobalRNC-ID", VSeq [Some (VOcts plmn); Some (VInt 23)] [])].
(* the domains of the channels that are opened *)
Definition channels (l : list hop) : list bool := flat_map (fun o => match o with HChannel p => [p] | _ => [] end) l.
(* the identifiers they get, from the first one on: consecutive, of 16 bits *)
Fixpoint numbered (id : N) (l : list bool) : list (bool * N) :=
  match l with [] => [] | p :: r => (p, id mod 65536)%N :: numbered (id + 1) r end.
(* the last circuit switched one *)
Fixpoint last_cs (l : list (bool * N)) (c : option N) : option N :=
  match l with [] => c | (p, id) :: r => last_cs r (if p then c else Some id) end.
(* the RUA Connect messages among what is sent *)
Definition connects (e : list heff) : list (list N) :=
  map snd (filter (fun x => (fst x =? rua_ppid)%N && match pdu_in T_RUA_RUA_PDU (snd x) with Some (1, 1, _, _)%N => true | _ => false end) (sent e)).
(* of what was allocated for these octets exactly the value of the PDU stays
   allocated *)
Definition keeps_value (t : ty) (b : list N) (y : hres) : Prop :=
  exists d p cr o, pdu_in t b = Some (d, p, cr, o) /\ Permutation (y_alloc y) (VOcts o :: y_freed y).
(* What the emulator has no use for: SCTP notifications, other streams, octets that are
   not a PDU, other procedures, and messages whose IEs cannot be decoded *)
Inductive useless : recv -> Prop :=
| useless_notification : useless RNotification
| useless_stream ppid b : ppid <> hnbap_ppid -> ppid <> rua_ppid -> useless (RData ppid b)
| useless_rua b : pdu_in T_RUA_RUA_PDU b = None -> useless (RData rua_ppid b)
| useless_hnbap b : pdu_in T_HNBAP_HNBAP_PDU b = None -> useless (RData hnbap_ppid b)
| useless_rua_procedure b d p cr o : pdu_in T_RUA_RUA_PDU b = Some (d, p, cr, o) -> p <> 2%N -> p <> 4%N -> useless (RData rua_ppid b)
| useless_hnbap_procedure b d p cr o : pdu_in T_HNBAP_HNBAP_PDU b = Some (d, p, cr, o) -> p <> 1%N -> p <> 3%N -> useless (RData hnbap_ppid b)
| useless_transfer b d cr o : pdu_in T_RUA_RUA_PDU b = Some (d, 2%N, cr, o) -> d_ok (decode_msg M_RUA_DirectTransferIEs o) = false -> useless (RData rua_ppid b)
| useless_unconnected b d cr o : pdu_in T_RUA_RUA_PDU b = Some (d, 4%N, cr, o) -> d_ok (decode_msg M_RUA_ConnectionlessTransferIEs o) = false -> useless (RData rua_ppid b)
| useless_ue b d cr o : pdu_in T_HNBAP_HNBAP_PDU b = Some (d, 3%N, cr, o) -> d_ok (decode_msg M_HNBAP_UERegisterAcceptIEs o) = false -> useless (RData hnbap_ppid b).
